(** * Properties C17-C22 and C51 of MultiplexNetwork *)
From Verif Require Import MpxIter.

(** ** Concrete networks used as examples *)
Fixpoint mcalls (p : mpx) (os : list mop) : list call * mpx :=
  match os with
  | [] => ([], p)
  | o :: os => let '(p', r) := mstep p o in let '(h, q) := mcalls p' os in ((o, r) :: h, q)
  end.
Lemma mcalls_hist_gen cs dir noe fi os : forall h p, mhist cs dir noe fi h p ->
  mhist cs dir noe fi (h ++ (mcalls p os).1) (mcalls p os).2.
Proof.
  induction os as [|o os IH]; intros h p H; simpl; [by rewrite app_nil_r|].
  destruct (mstep p o) as [p' r] eqn:E. specialize (IH (h ++ [(o, r)]) p' ltac:(by eapply mhist_op)).
  destruct (mcalls p' os) as [h' q]. simpl in *. by rewrite <- app_assoc in IH.
Qed.
Lemma mcalls_hist cs dir noe fi os :
  mhist cs dir noe fi (mcalls (new_mpx cs dir noe fi) os).1 (mcalls (new_mpx cs dir noe fi) os).2.
Proof. apply (mcalls_hist_gen _ _ _ _ _ []). constructor. Qed.

Definition n1 := NInt 1. Definition n2 := NInt 2. Definition n3 := NInt 3.
Definition sa := NStr "a". Definition sb := NStr "b". Definition sc := NStr "c".
(** Two aspects, the first categorical, the second ordinal, fully interconnected. *)
Definition exf_os : list mop :=
  [ MSet [n1; n2; sa; n1] 5; MSet [n2; n3; sa; sa; n2; n2] 7; MSet [n1; n1; sa; sb; n1; n1] 1;
    MASet (LTup [sb; n2]) [n1; n3] 4; MNodeSet [n2; sa; n1] [n1; sa; n1] 6; MAddLayer (NInt 3) 2; MAddNode (NInt 9) None ].
Definition exf := mcalls (new_mpx [CCat 2; COrd 3] false 0 true) exf_os.
Lemma exf_hist : mhist [CCat 2; COrd 3] false 0 true exf.1 exf.2.
Proof. apply mcalls_hist. Qed.
(** One categorical aspect, directed, not fully interconnected. *)
Definition exn_os : list mop :=
  [ MSet [n1; n2; sa] 5; MSet [n2; n1; sb] 7; MAddNode n1 (Some (LBare sc)); MASet (LBare sc) [n3; n1] 4;
    MASet (LBare (NStr "z")) [n3; n1] 4; MSet [n1; n2; sa; sb] 8 ].
Definition exn_ := mcalls (new_mpx [CCat 2] true 0 false) exn_os.
Lemma exn_hist : mhist [CCat 2] true 0 false exn_.1 exn_.2.
Proof. apply mcalls_hist. Qed.

Lemma pinv_asp cs dir noe fi h p : pinv cs dir noe fi h p -> maspects p = length cs.
Proof. intros Hi. unfold maspects. by rewrite (pi_coup _ _ _ _ _ _ Hi). Qed.

(** ** C17 *)
Theorem C17_read_last_write cs dir fi h p : mhist cs dir 0 fi h p ->
  forall l i j w, mlayer_form (length cs) l -> i <> j ->
    mreads p (nl_of i l) (nl_of j l) w <-> mlast (length cs) dir h l i j w.
Proof.
  intros H%mhist_inv l i j w Hl Hne. rewrite (mreads_intra _ _ _ _ _ _ _ _ _ _ H Hl Hne), mlast_iff by done.
  destruct (pA p l) as [m|] eqn:Hm; [done|]. by rewrite (pi_none _ _ _ _ _ _ H l Hm).
Qed.
(** Reading never raises, and all index tuples of a link give the same answer. *)
Theorem C17_reads_total cs dir noe fi h p : mhist cs dir noe fi h p ->
  forall l i j, mlayer_form (length cs) l -> i <> j -> exists w,
    forall item, names_link (length cs) item (nl_of i l) (nl_of j l) -> pgetitem p item = Ok w.
Proof.
  intros H%mhist_inv l i j Hl Hne. pose proof (pinv_asp _ _ _ _ _ _ H) as Has.
  assert (exists w, mreads p (nl_of i l) (nl_of j l) w) as [w Hw].
  { destruct (pA p l) as [m|] eqn:Hm; eexists; apply (mreads_intra _ _ _ _ _ _ _ _ _ _ H Hl Hne); by rewrite Hm. }
  exists w. intros item Hi. rewrite <- Has in Hi. rewrite (pgetitem_pair p item _ _ Hi).
  destruct (mreads_len _ _ _ _ Hw) as [H1 H2]. by apply mreads_pair in Hw.
Qed.
(** Reading through [net.A[l]] gives the same, for every existing layer. *)
Theorem C17_read_through_layer cs dir noe fi h p : mhist cs dir noe fi h p ->
  forall l i j w, l ∈ mlayers p -> i <> j ->
    (agetitem p l [i; j] = Ok w <-> mlast (length cs) dir h l i j w) /\
    (agetitem p l [i; j] = Ok w <-> mreads p (nl_of i l) (nl_of j l) w).
Proof.
  intros H%mhist_inv l i j w Hl Hne. pose proof (pinv_asp _ _ _ _ _ _ H) as Has.
  apply elem_of_mlayers in Hl as [Hl1 Hl2]; [|apply H]. destruct (lay_pA p l (pi_wf _ _ _ _ _ _ H) Hl1 Hl2) as [m Hm].
  rewrite Has in Hl2. rewrite mlast_iff by done. rewrite (mreads_intra _ _ _ _ _ _ _ _ _ _ H Hl2 Hne), Hm.
  unfold agetitem. rewrite Hm. simpl. rewrite (view_get _ _ _ _ _ _ _ _ _ _ H Hm). split; split; congruence.
Qed.
(** A call that does not assign to the link leaves it alone; in particular calls
    about other layers do. *)
Theorem C17_other_links_unchanged cs dir fi h p o p' r : mhist cs dir 0 fi h p -> mstep p o = (p', r) ->
  forall l i j, mlayer_form (length cs) l -> i <> j -> (forall w, ~ massigns (length cs) dir (o, r) l i j w) ->
    forall w, mreads p' (nl_of i l) (nl_of j l) w <-> mreads p (nl_of i l) (nl_of j l) w.
Proof.
  intros H E l i j Hl Hne Hno w. pose proof (mhist_op _ _ _ _ _ _ _ _ _ H E) as H'.
  rewrite (C17_read_last_write _ _ _ _ _ H' l i j w Hl Hne), (C17_read_last_write _ _ _ _ _ H l i j w Hl Hne).
  rewrite !mlast_iff, mspec_app by done. unfold mspec_step.
  destruct (mwrite _ _ _ _) as [[[i' j'] v]|] eqn:Ew; [|done]. destruct (decide _) as [Hh|]; [|done].
  exfalso. apply (Hno v). apply massigns_hit; [done..|]. eauto.
Qed.
Example C17_example : mreads exf.2 [n1; sa; n1] [n2; sa; n1] 6 /\ mreads exf.2 [n3; sb; n2] [n1; sb; n2] 4 /\
  agetitem exf.2 (LTup [sa; n2]) [n2; n3] = Ok 7%Z /\ mlast 2 false exf.1 (LTup [sa; n1]) n2 n1 6.
Proof.
  split; [exists [n1; n2; sa; n1]; split; [by apply names_short|by vm_compute]|].
  split; [exists [n3; n1; sb; n2]; split; [by apply names_short|by vm_compute]|].
  split; [by vm_compute|].
  apply (C17_read_last_write _ _ _ _ _ exf_hist (LTup [sa; n1]) n2 n1 6); [simpl; lia|done|].
  exists [n2; n1; sa; n1]. split; [by apply names_short|by vm_compute].
Qed.
Print Assumptions C17_read_last_write.
Print Assumptions C17_reads_total.
Print Assumptions C17_read_through_layer.
Print Assumptions C17_other_links_unchanged.

(** ** C18 *)
Theorem C18_categorical cs dir noe fi h p d w a b : mhist cs dir noe fi h p ->
  cs !! d = Some (CCat w) -> mexists p a -> mexists p b -> differ_at (S d) a b -> mreads p a b w.
Proof.
  intros H%mhist_inv Hc Ha Hb Hd. pose proof (pi_wf _ _ _ _ _ _ H) as Hw.
  destruct (mexists_psl p a Hw Ha) as (Hla & _). destruct (mexists_psl p b Hw Hb) as (Hlb & _).
  apply mreads_pair; [done..|]. rewrite (pget_pair_coup_ex p d a b) by done. unfold cread.
  simpl. rewrite Nat.sub_0_r, (pi_coup _ _ _ _ _ _ H), Hc. done.
Qed.
Theorem C18_ordinal cs dir noe fi h p d w a b x y : mhist cs dir noe fi h p ->
  cs !! d = Some (COrd w) -> mexists p a -> mexists p b -> differ_at (S d) a b ->
  a !! S d = Some (NInt x) -> b !! S d = Some (NInt y) ->
  ((x = y + 1 \/ y = x + 1)%Z -> mreads p a b w) /\ (~ (x = y + 1 \/ y = x + 1)%Z -> mreads p a b noe).
Proof.
  intros H%mhist_inv Hc Ha Hb Hd Hx Hy. pose proof (pi_wf _ _ _ _ _ _ H) as Hw.
  destruct (mexists_psl p a Hw Ha) as (Hla & _). destruct (mexists_psl p b Hw Hb) as (Hlb & _).
  split; intros Hxy; (apply mreads_pair; [done..|]); rewrite (pget_pair_coup_ex p d a b) by done; unfold cread;
    simpl; rewrite Nat.sub_0_r, (pi_coup _ _ _ _ _ _ H), Hc, Hx, Hy; simpl; rewrite ?(pi_noe _ _ _ _ _ _ H);
    do 2 case_bool_decide; simpl; try done; exfalso; lia.
Qed.
(** Ordinal coupling between layers one of which is not an integer. *)
Theorem C18_ordinal_string cs dir noe fi h p d w a b x y : mhist cs dir noe fi h p ->
  cs !! d = Some (COrd w) -> mexists p a -> mexists p b -> differ_at (S d) a b ->
  a !! S d = Some x -> b !! S d = Some y -> (exists s, x = NStr s \/ y = NStr s) -> mraises p a b TypeError.
Proof.
  intros H%mhist_inv Hc Ha Hb Hd Hx Hy [s Hs]. pose proof (pi_wf _ _ _ _ _ _ H) as Hw.
  destruct (mexists_psl p a Hw Ha) as (Hla & _). destruct (mexists_psl p b Hw Hb) as (Hlb & _).
  apply mraises_pair; [done..|]. rewrite (pget_pair_coup_ex p d a b) by done; unfold cread.
  simpl; rewrite Nat.sub_0_r, (pi_coup _ _ _ _ _ _ H), Hc, Hx, Hy. destruct x, y; try done. by destruct Hs.
Qed.
Theorem C18_network cs dir noe fi h p d m a b x y w : mhist cs dir noe fi h p ->
  cs !! d = Some (CNet m) -> aspects m = 0 -> mexists p a -> mexists p b -> differ_at (S d) a b ->
  a !! S d = Some x -> b !! S d = Some y -> mreads p a b w <-> reads m [x] [y] w.
Proof.
  intros H%mhist_inv Hc Hm Ha Hb Hd Hx Hy. pose proof (pi_wf _ _ _ _ _ _ H) as Hw.
  destruct (mexists_psl p a Hw Ha) as (Hla & _). destruct (mexists_psl p b Hw Hb) as (Hlb & _).
  rewrite mreads_pair, reads_rd by (done || simpl; congruence). rewrite (pget_pair_coup_ex p d a b) by done. unfold cread.
  simpl; rewrite Nat.sub_0_r, (pi_coup _ _ _ _ _ _ H), Hc, Hx, Hy. 
  change (get_link m [x; y]) with (weight m [x] [y]). rewrite weight_rd by done. split; congruence.
Qed.
(** Links between different nodes on different layers, self-links, and links
    differing in several aspects. *)
Theorem C18_unrelated cs dir noe fi h p a b : mhist cs dir noe fi h p ->
  length a = S (length cs) -> length b = S (length cs) -> (forall d, ~ differ_at d a b) -> mreads p a b noe.
Proof.
  intros H%mhist_inv Ha Hb Hn. pose proof (pinv_asp _ _ _ _ _ _ H) as Has.
  apply mreads_pair; [congruence..|]. rewrite pget_pair_none; [|congruence|done]. by rewrite (pi_noe _ _ _ _ _ _ H).
Qed.
(** A coupling link of which an endpoint does not exist: fully interconnected
    networks only look at the node. *)
Theorem C18_missing_fi cs dir noe h p d a b : mhist cs dir noe true h p ->
  length a = S (length cs) -> length b = S (length cs) -> differ_at (S d) a b ->
  (~ mhas p 0 (node_of a) -> mreads p a b noe) /\
  (forall w, mhas p 0 (node_of a) -> cs !! d = Some (CCat w) -> mreads p a b w).
Proof.
  intros H%mhist_inv Ha Hb Hd. pose proof (pinv_asp _ _ _ _ _ _ H) as Has.
  assert (Hn : mhas p 0 (node_of a) <-> node_of a ∈ mnodes p).
  { unfold mhas, mget_layers. rewrite mnodes_psl. unfold psl. destruct (mslices p !! 0) as [s|]; naive_solver. }
  split; [intros Hno|intros w Hin Hc]; (apply mreads_pair; [congruence..|]); rewrite (pget_pair_coup p d a b Hd).
  - rewrite (proj2 (lin_false _ _)); [by rewrite (pi_noe _ _ _ _ _ _ H)|]. by rewrite <- Hn.
  - rewrite (proj2 (Base.lin_true _ _)) by by apply Hn. rewrite (pi_fic _ _ _ _ _ _ H). cbn [rbind].
    unfold cread. simpl. rewrite Nat.sub_0_r, (pi_coup _ _ _ _ _ _ H), Hc. done.
Qed.
(** Not fully interconnected: noEdge, or KeyError if a layer does not exist. *)
Theorem C18_missing_nf cs dir noe h p d a b : mhist cs dir noe false h p ->
  length a = S (length cs) -> length b = S (length cs) -> differ_at (S d) a b ->
  ~ (mexists p a /\ mexists p b) ->
  mreads p a b noe \/
  (mraises p a b KeyError /\ (player_of (length cs) a ∉ mlayers p \/ player_of (length cs) b ∉ mlayers p)).
Proof.
  intros H%mhist_inv Ha Hb Hd Hno. pose proof (pinv_asp _ _ _ _ _ _ H) as Has. pose proof (pi_wf _ _ _ _ _ _ H) as Hw.
  assert (1 <= maspects p) as H1. { destruct Hd as (_ & Hd & _). lia. } rewrite <- Has in *.
  pose proof (pi_fic _ _ _ _ _ _ H) as Hf.
  assert (node_of a = node_of b) as Hnn.
  { destruct a as [|x a]; [done|]. destruct b as [|y b]; [done|]. by apply differ_at_S in Hd as [? _]. }
  rewrite mreads_pair, mraises_pair by done. rewrite (pget_pair_coup p d a b Hd). rewrite Hf, !lkey_player by done.
  rewrite <- (pi_noe _ _ _ _ _ _ H).
  assert (Hlay : forall c, length c = S (maspects p) -> pA p (player_of (maspects p) c) = None -> player_of (maspects p) c ∉ mlayers p).
  { intros c Hc Hn Hl. apply elem_of_mlayers in Hl as [Hl1 Hl2]; [|done]. destruct (lay_pA p _ Hw Hl1 Hl2). congruence. }
  assert (Hex : forall c m, length c = S (maspects p) -> pA p (player_of (maspects p) c) = Some m -> node_of c ∈ net_nodes m -> mexists p c).
  { intros c m Hc Hm Hin. apply mexists_nf; [done..|]. unfold pA in Hm. rewrite Hf in Hm.
    destruct (dget (mA p) (player_of (maspects p) c)) as [m0|] eqn:E; [|done]. injection Hm as ->. by apply (pw_node p Hw Hf _ m). }
  destruct (lin (node_of a) (mnodes p)); [|by left].
  destruct (pA p (player_of (maspects p) a)) as [m1|] eqn:E1; [|right; split; [done|left; by apply Hlay]].
  destruct (lin (node_of a) (net_nodes m1)) eqn:L1; [|by left]. apply Base.lin_true in L1.
  destruct (pA p (player_of (maspects p) b)) as [m2|] eqn:E2; [|right; split; [done|right; by apply Hlay]].
  cbn [rbind]. destruct (lin (node_of a) (net_nodes m2)) eqn:L2; [|by left]. apply Base.lin_true in L2. exfalso.
  apply Hno. split; [by apply (Hex a m1)|]. apply (Hex b m2); [done|done|]. by rewrite <- Hnn.
Qed.
(** Coupling ("none",): every coupling link raises. *)
Theorem C18_none_raises cs dir noe fi h p d o a b : mhist cs dir noe fi h p ->
  cs !! d = Some (CNone o) -> mexists p a -> mexists p b -> differ_at (S d) a b -> mraises p a b GenericException.
Proof.
  intros H%mhist_inv Hc Ha Hb Hd. pose proof (pi_wf _ _ _ _ _ _ H) as Hw.
  destruct (mexists_psl p a Hw Ha) as (Hla & _). destruct (mexists_psl p b Hw Hb) as (Hlb & _).
  apply mraises_pair; [done..|]. rewrite (pget_pair_coup_ex p d a b) by done. unfold cread.
  simpl. rewrite Nat.sub_0_r, (pi_coup _ _ _ _ _ _ H), Hc. done.
Qed.
(** Undirected networks without coupling networks are symmetric. *)
Lemma mreads_sym cs noe fi h p a b w : pinv cs false noe fi h p -> Forall no_net cs ->
  mexists p a -> mexists p b -> mreads p a b w -> mreads p b a w.
Proof.
  intros H Hn Ha Hb. pose proof (pi_wf _ _ _ _ _ _ H) as Hw. pose proof (pinv_asp _ _ _ _ _ _ H) as Has.
  destruct (mexists_psl p a Hw Ha) as (Hla & _). destruct (mexists_psl p b Hw Hb) as (Hlb & _).
  intros Hr. assert ((exists d, inter_aspects a b = [d]) \/ ~ exists d, inter_aspects a b = [d]) as [[d Hd]|Hno].
  { destruct (inter_aspects a b) as [|d [|e l]]; [right; by intros [? ?]|left; eauto|right; by intros [? ?]]. }
  - apply inter_aspects_single in Hd; [|congruence]. destruct d as [|d].
    + apply mreads_pair in Hr; [|done..]. apply mreads_pair; [done..|].
      rewrite pget_pair_intra in Hr by done. rewrite pget_pair_intra by by apply differ_at_sym.
      destruct a as [|x a]; [done|]. destruct b as [|y b]; [done|]. apply differ_at_0 in Hd as [Hne <-]. simpl in *.
      destruct (pA p (lkey (maspects p) a)) as [m|] eqn:Hm; [|done].
      destruct (pi_view _ _ _ _ _ _ H _ _ Hm) as (g & Hg & _). destruct (hist_inv _ _ _ _ _ _ Hg) as [_ HL _ _ Hdir _].
      rewrite <- Hr. f_equal. change (weight m [y] [x] = weight m [x] [y]).
      rewrite !weight_rd by done. unfold rd. by rewrite (wfL_sym m HL Hdir).
    + assert (forall c, mcoup p !! d = Some c -> no_net c) as Hnn.
      { intros c Hc. rewrite (pi_coup _ _ _ _ _ _ H) in Hc. rewrite Forall_lookup in Hn. by eapply Hn. }
      apply (coup_reads p DIn d a b w Hw Ha Hb Hd Hnn). by apply (coup_reads p DOut d a b w Hw Ha Hb Hd Hnn).
  - assert (forall d, ~ differ_at d a b) as Hnd. { intros d Hd. apply Hno. exists d. apply inter_aspects_single; [congruence|done]. }
    apply mreads_pair in Hr; [|done..]. apply mreads_pair; [done..|]. rewrite pget_pair_none in Hr; [|congruence|done].
    rewrite pget_pair_none; [done|congruence|]. intros d Hd. by apply (Hnd d), differ_at_sym.
Qed.
Theorem C18_symmetric cs noe fi h p a b w : mhist cs false noe fi h p ->
  (forall m, CNet m ∉ cs) -> mexists p a -> mexists p b -> mreads p a b w <-> mreads p b a w.
Proof.
  intros H%mhist_inv Hn Ha Hb. assert (Forall no_net cs) as Hnn.
  { apply Forall_forall. intros [w'|w'|o|m] Hc; try done. by apply Hn in Hc. }
  split; by eapply mreads_sym.
Qed.
Definition exnone := (mcalls (new_mpx [CNone None] false 0 true) [MSet [n1; n2; sa] 1; MSet [n1; n2; sb] 1]).
(** The documented reading of a link that is not in the network is noEdge. *)
Theorem C18_none_refuted : exists h p a b, mhist [CNone None] false 0 true h p /\
  mexists p a /\ mexists p b /\ mraises p a b GenericException.
Proof.
  exists exnone.1, exnone.2, [n1; sa], [n1; sb]. split; [apply mcalls_hist|].
  split; [eexists; split; [by vm_compute|]; by apply (bool_decide_unpack _)|].
  split; [eexists; split; [by vm_compute|]; by apply (bool_decide_unpack _)|].
  exists [n1; n1; sa; sb]. split; [|by vm_compute]. exact (names_link_full 1 [n1; sa] [n1; sb] eq_refl eq_refl).
Qed.
Example C18_example : mreads exf.2 [n1; sa; n1] [n1; sb; n1] 2 /\ mreads exf.2 [n1; sa; n1] [n1; sa; n2] 3 /\
  mreads exf.2 [n1; sa; n1] [n1; sa; n3] 0 /\ mreads exf.2 [n1; sa; n1] [n2; sb; n1] 0 /\
  mexists exf.2 [n1; sa; n1] /\ mexists exf.2 [n1; sb; n1] /\ differ_at 1 [n1; sa; n1] [n1; sb; n1] /\
  mreads exn_.2 [n1; sa] [n1; sc] 2 /\ mreads exn_.2 [n2; sa] [n2; sc] 0 /\ mraises exn_.2 [n1; sa] [n1; NStr "q"] KeyError.
Proof.
  assert (forall a b, length a = 3 -> length b = 3 -> names_link 2 (interleave a b) a b) as H2 by (intros; by apply names_link_full).
  assert (forall a b, length a = 2 -> length b = 2 -> names_link 1 (interleave a b) a b) as H1 by (intros; by apply names_link_full).
  split_and!; try (eexists; split; [by apply H2 || by apply H1|by vm_compute]).
  - eexists; split; [by vm_compute|]. by apply (bool_decide_unpack _).
  - eexists; split; [by vm_compute|]. by apply (bool_decide_unpack _).
  - apply differ_at_S. split; [done|]. by apply differ_at_0.
Qed.
Print Assumptions C18_categorical.
Print Assumptions C18_ordinal.
Print Assumptions C18_ordinal_string.
Print Assumptions C18_network.
Print Assumptions C18_unrelated.
Print Assumptions C18_missing_fi.
Print Assumptions C18_missing_nf.
Print Assumptions C18_none_raises.
Print Assumptions C18_symmetric.
Print Assumptions C18_none_refuted.

(** ** C19 *)
(** Couplings that iteration and degrees treat faithfully at [a]: categorical and
    ordinal couplings of nonzero weight (ordinal layers being integers), and "none". *)
Definition coupling_ok (cs : list coupling) (a : nl) : Prop :=
  forall d c, cs !! d = Some c ->
    match c with
    | CCat w => w <> 0%Z
    | COrd w => w <> 0%Z /\ exists z, a !! S d = Some (NInt z)
    | CNone _ => True
    | CNet _ => False
    end.
(** The coupling was given a weight (strengths of a coupling without one raise). *)
Definition has_weight (c : coupling) : Prop :=
  match c with CCat _ | COrd _ | CNone (Some _) => True | _ => False end.
(** What neighbour iteration, degree and strength of [a] return, in terms of links:
    [L] lists the neighbours. *)
Definition neighbours_exact (p : mpx) (dr : direction) (a : nl) (ds : option (list (option name))) (L : list nl) : Prop :=
  mp_iter p dr a ds = Ok L /\
  lists_exactly L (fun b => mexists p b /\ mlinked_dir p dr a b /\ matches ds b) /\
  (mdir p = false \/ dr <> DTot -> mp_degree p dr a ds = Ok (Z.of_nat (length L))) /\
  (mdir p = false \/ dr <> DTot -> Forall has_weight (mcoup p) ->
     forall f, (forall b, b ∈ L -> mreads_dir p dr a b (f b)) -> mp_strength p dr a ds = Ok (zsumf f L)).

Lemma no_self_linked cs dir noe fi h p a m : pinv cs dir noe fi h p -> 1 <= length cs -> length a = S (length cs) ->
  pA p (lkey (maspects p) (tail a)) = Some m -> agetitem p (player_of (length cs) a) [node_of a; node_of a] = Ok 0%Z ->
  good m /\ aspects m = 0 /\ noEdge m = 0%Z /\ ~ linked m [node_of a] [node_of a].
Proof.
  intros H H1 Hl Hm Hg. pose proof (pinv_asp _ _ _ _ _ _ H) as Has. rewrite <- Has in Hl, Hg, H1. rewrite lkey_player in Hm by done.
  destruct (pi_view _ _ _ _ _ _ H _ _ Hm) as (g & Hh & _). pose proof (hist_good _ _ _ _ _ _ Hh) as Hgd.
  destruct (hist_inv _ _ _ _ _ _ Hh) as [_ HL Ha Hn _ _]. split; [done|]. split; [done|]. split; [done|].
  intros Hk. apply linked_lnk in Hk; [|done]. apply rd_noEdge in Hk; [|done]. apply Hk. rewrite Hn.
  unfold agetitem in Hg. rewrite Hm in Hg. simpl in Hg.
  change (get_link m [node_of a; node_of a]) with (weight m [node_of a] [node_of a]) in Hg. rewrite weight_rd in Hg by done.
  congruence.
Qed.
Lemma neighbours_lift cs dir noe fi h p dr a ds : pinv cs dir noe fi h p -> Forall no_net cs -> mexists p a ->
  dims_of (length cs) ds a -> (forall dr d, d <= maspects p -> exists L, dim_good p dr a d L) ->
  exists L, neighbours_exact p dr a ds L.
Proof.
  intros H Hnn Ha Hds Hg. pose proof (pinv_asp _ _ _ _ _ _ H) as Has. rewrite <- Has in Hds.
  destruct (dims_good p (pdir p dr) a ds (pi_wf _ _ _ _ _ _ H) Ha Hds (Hg _)) as (L & H1 & H2 & H3 & H4).
  assert (Hrs : mdir p = false -> forall b, mexists p b -> forall w, mreads p a b w <-> mreads p b a w).
  { intros Hd b Hb w. rewrite (pi_dir _ _ _ _ _ _ H) in Hd. subst dir. split; by eapply mreads_sym. }
  assert (Hls : mdir p = false -> forall b, mexists p b -> mlinked p a b <-> mlinked p b a).
  { intros Hd b Hb. unfold mlinked. setoid_rewrite (Hrs Hd b Hb). done. }
  assert (H2' : lists_exactly L (fun b => mexists p b /\ mlinked_dir p dr a b /\ matches ds b)).
  { eapply lists_exactly_iff; [|exact H2]. intros b. simpl. unfold pdir. destruct (mdir p) eqn:Hd; [done|].
    split; intros (Hb & Hlk & Hm); (split; [done|]); (split; [|done]); specialize (Hls eq_refl b Hb);
      destruct dr; simpl in *; tauto. }
  exists L. split; [done|]. split; [done|]. split.
  - intros Hd. apply H3. unfold pdir. destruct (mdir p); [|done]. by destruct Hd.
  - intros Hd Hw f Hf. apply H4.
    + unfold pdir. destruct (mdir p); [|done]. by destruct Hd.
    + done.
    + intros b Hb. specialize (Hf b Hb). apply H2 in Hb as (Hb & _). unfold pdir. destruct (mdir p) eqn:Hd'; [done|].
      specialize (Hrs eq_refl b Hb). destruct dr; simpl in *; try done. by apply Hrs.
Qed.
Lemma coupling_ok_no_net cs a : coupling_ok cs a -> Forall no_net cs.
Proof. intros Hok. apply Forall_lookup. intros d c Hc. specialize (Hok d c Hc). by destruct c. Qed.

Theorem C19_neighbours_exact cs dir h p dr a ds : mhist cs dir 0 true h p -> 1 <= length cs ->
  mexists p a -> coupling_ok cs a -> dims_of (length cs) ds a ->
  agetitem p (player_of (length cs) a) [node_of a; node_of a] = Ok 0%Z ->
  exists L, neighbours_exact p dr a ds L.
Proof.
  intros H%mhist_inv H1 Ha Hok Hds Hself. pose proof (pi_wf _ _ _ _ _ _ H) as Hw. pose proof (pinv_asp _ _ _ _ _ _ H) as Has.
  eapply neighbours_lift; [done|by eapply coupling_ok_no_net|done|done|]. intros dr' [|d] Hd.
  - destruct (mexists_psl p a Hw Ha) as (Hl & _ & Hm & _). destruct (Hm ltac:(lia)) as (m & HA & _). rewrite Has in Hl.
    destruct (no_self_linked _ _ _ _ _ _ _ _ H H1 Hl HA Hself) as (Hg & H2 & H3 & H4).
    apply (dim_good_intra p dr' a m Hw Ha ltac:(lia) (pi_noe _ _ _ _ _ _ H) HA Hg H2 H3 H4).
  - apply dim_good_coup_fic; [done|apply H|done|apply H|done|]. unfold coup_ok. rewrite (pi_coup _ _ _ _ _ _ H).
    destruct (lookup_lt_is_Some_2 cs d) as [c Hc]; [lia|]. rewrite Hc. specialize (Hok d c Hc). by destruct c.
Qed.
(** Without self-loops written through an intra-layer network the condition on
    [net.A] holds. *)
Theorem C19_self_condition cs dir noe fi h p a : mhist cs dir noe fi h p -> 1 <= length cs -> mexists p a ->
  (forall l i w, (MASet l [i; i] w, Ok tt) ∉ h) ->
  agetitem p (player_of (length cs) a) [node_of a; node_of a] = Ok 0%Z.
Proof.
  intros H%mhist_inv H1 Ha Hno. pose proof (pi_wf _ _ _ _ _ _ H) as Hw. pose proof (pinv_asp _ _ _ _ _ _ H) as Has.
  destruct (mexists_psl p a Hw Ha) as (Hl & _ & Hm & _). destruct (Hm ltac:(lia)) as (m & HA & _).
  rewrite lkey_player in HA by (done || lia). rewrite <- Has. unfold agetitem. rewrite HA. simpl. f_equal.
  rewrite (view_get _ _ _ _ _ _ _ _ _ _ H HA). clear -Hno. induction h as [|e h IH] using rev_ind; [done|].
  assert (forall l i w, (MASet l [i; i] w, Ok tt) ∉ h) as Hno'. { intros l i w Hin. apply (Hno l i w). apply elem_of_app. by left. }
  rewrite mspec_app. unfold mspec_step. specialize (IH Hno').
  destruct (mwrite _ _ _ e) as [[[i j] w]|] eqn:E; [|done]. destruct (decide (nhit _ _ _ _ _)) as [Hh|]; [|done].
  assert (i = node_of a /\ j = node_of a) as [-> ->] by (destruct Hh as [[? ?]|(_ & ? & ?)]; split; congruence).
  destruct e as [o r]. destruct o as [item v|a' b' v|l' item v|x lay|y k|l' x]; cbn in E; try done.
  - exfalso. unfold wl in E. destruct (decide (length item = _)) in E; [|destruct (decide (length item = _)) in E; [|done]];
      (destruct (decide _) as [(_ & _ & _ & Hne)|] in E; [|done]); injection E; congruence.
  - exfalso. unfold wl in E. destruct (decide _) in E; [|done].
      (destruct (decide _) as [(_ & _ & _ & Hne)|] in E; [|done]); injection E; congruence.
  - destruct item as [|i [|j [|]]]; try done. destruct (decide _) as [[-> Hr]|] in E; [|done].
    injection E as -> -> ->. destruct Hr as [->|(_ & -> & _)]; [|done]. exfalso. eapply (Hno _ _ w). apply elem_of_app. right.
    apply elem_of_list_singleton. done.
Qed.
(** A self-loop written through [net.A] is iterated over and counted, but reads noEdge. *)
Definition exself := mcalls (new_mpx [CCat 1] false 0 true) [MSet [n1; n2; sa] 1; MASet (LBare sa) [n1; n1] 5].
Theorem C19_self_loop_refuted : exists h p a L, mhist [CCat 1] false 0 true h p /\ mexists p a /\
  mp_iter p DTot a None = Ok L /\ a ∈ L /\ mreads p a a 0.
Proof.
  exists exself.1, exself.2, [n1; sa], [[n2; sa]; [n1; sa]]. split; [apply mcalls_hist|].
  split; [eexists; split; [by vm_compute|]; by apply (bool_decide_unpack _)|].
  split; [by vm_compute|]. split; [by apply (bool_decide_unpack _)|].
  exists [n1; n1; sa]. split; [exact (names_short 1 n1 n1 [sa] eq_refl)|by vm_compute].
Qed.
(** A restriction that the node-layer itself does not satisfy yields nothing, even
    if neighbours satisfy it: [net[1,'a'][:,'b']]. *)
Theorem C19_other_slice_refuted : exists h p a b ds, mhist [CCat 1] false 0 true h p /\ mexists p a /\ mexists p b /\
  mlinked p a b /\ matches ds b /\ mp_iter p DTot a ds = Ok [] /\ mp_degree p DTot a ds = Ok 0%Z.
Proof.
  set (q := mcalls (new_mpx [CCat 1] false 0 true) [MSet [n1; n2; sa] 1; MSet [n1; n2; sb] 1]).
  exists q.1, q.2, [n1; sa], [n1; sb], (Some [None; Some sb]). split; [apply mcalls_hist|].
  split; [eexists; split; [by vm_compute|]; by apply (bool_decide_unpack _)|].
  split; [eexists; split; [by vm_compute|]; by apply (bool_decide_unpack _)|].
  split; [exists 1%Z; split; [|done]; exists [n1; n1; sa; sb]; split; [exact (names_link_full 1 [n1; sa] [n1; sb] eq_refl eq_refl)|by vm_compute]|].
  split; [|split; by vm_compute]. intros k x. destruct k as [|[|k]]; simpl; rewrite ?lookup_nil; congruence.
Qed.
Example C19_example : exists L, neighbours_exact exf.2 DTot [n2; sa; n2] None L /\ length L = 4 /\
  mp_strength exf.2 DTot [n2; sa; n1] None = Ok 11%Z.
Proof.
  destruct (C19_neighbours_exact _ _ _ _ DTot [n2; sa; n2] None exf_hist) as [L HL].
  - simpl. lia.
  - eexists; split; [by vm_compute|]. by apply (bool_decide_unpack _).
  - intros [|[|d]] c; simpl; [intros [= <-]; done|intros [= <-]; split; [done|by exists 2%Z]|done].
  - done.
  - by vm_compute.
  - exists L. split; [done|]. split; [|by vm_compute]. destruct HL as [HL _].
    assert (mp_iter exf.2 DTot [n2; sa; n2] None = Ok L) as HL' by done. revert HL'. clear. vm_compute. intros [= <-]. done.
Qed.
Print Assumptions C19_neighbours_exact.
Print Assumptions C19_self_condition.
Print Assumptions C19_self_loop_refuted.
Print Assumptions C19_other_slice_refuted.

(** ** C20 *)
Theorem C20_one_categorical cw dir h p dr a ds : mhist [CCat cw] dir 0 false h p -> cw <> 0%Z ->
  mexists p a -> dims_of 1 ds a -> agetitem p (player_of 1 a) [node_of a; node_of a] = Ok 0%Z ->
  exists L, neighbours_exact p dr a ds L.
Proof.
  intros H%mhist_inv Hcw Ha Hds Hself. pose proof (pi_wf _ _ _ _ _ _ H) as Hw. pose proof (pinv_asp _ _ _ _ _ _ H) as Has.
  change (length [CCat cw]) with 1 in Has.
  eapply neighbours_lift; [done|by repeat constructor|done|done|]. intros dr' [|[|d]] Hd; [| |lia].
  - destruct (mexists_psl p a Hw Ha) as (Hl & _ & Hm & _). destruct (Hm ltac:(lia)) as (m & HA & _). rewrite Has in Hl.
    destruct (no_self_linked _ _ _ _ _ _ _ _ H (le_n 1) Hl HA Hself) as (Hg & H2 & H3 & H4).
    apply (dim_good_intra p dr' a m Hw Ha ltac:(lia) (pi_noe _ _ _ _ _ _ H) HA Hg H2 H3 H4).
  - eapply dim_good_cat_nf; [done|apply H|done|apply H|apply H|done].
Qed.
Definition exord := mcalls (new_mpx [COrd 1] false 0 false) [MSet [n1; n2; n1] 1; MSet [n1; n2; n2] 1].
(** Ordinal coupling: the link to the next layer reads 1 but is neither iterated over
    nor counted. *)
Theorem C20_ordinal_refuted : exists h p a b L, mhist [COrd 1] false 0 false h p /\ mexists p a /\ mexists p b /\
  mlinked p a b /\ mp_iter p DTot a None = Ok L /\ b ∉ L /\ mp_degree p DTot a None = Ok (Z.of_nat (length L)).
Proof.
  exists exord.1, exord.2, [n1; n1], [n1; n2], [[n2; n1]]. split; [apply mcalls_hist|].
  split; [eexists; split; [by vm_compute|]; by apply (bool_decide_unpack _)|].
  split; [eexists; split; [by vm_compute|]; by apply (bool_decide_unpack _)|].
  split; [exists 1%Z; split; [|by vm_compute]; exists [n1; n1; n1; n2]; split; [apply (names_link_full _ [n1; n1] [n1; n2]); by vm_compute|by vm_compute]|].
  split; [by vm_compute|]. split; [by apply (bool_decide_unpack _)|by vm_compute].
Qed.
Definition excat2 := mcalls (new_mpx [CCat 1; CCat 1] false 0 false) [MSet [n1; n2; sa; sa] 1; MSet [n1; n2; sb; sa] 1].
(** Two categorical aspects: the degree of an existing node-layer raises. *)
Theorem C20_two_aspects_refuted : exists h p a, mhist [CCat 1; CCat 1] false 0 false h p /\ mexists p a /\
  mp_degree p DTot a None = Err TypeError.
Proof.
  exists excat2.1, excat2.2, [n1; sa; sa]. split; [apply mcalls_hist|].
  split; [eexists; split; [by vm_compute|]; by apply (bool_decide_unpack _)|by vm_compute].
Qed.
Example C20_example : exists L, neighbours_exact exn_.2 DIn [n1; sc] None L /\ length L = 3 /\
  mp_strength exn_.2 DIn [n1; sc] None = Ok 8%Z.
Proof.
  destruct (C20_one_categorical _ _ _ _ DIn [n1; sc] None exn_hist) as [L HL].
  - done.
  - eexists; split; [by vm_compute|]. by apply (bool_decide_unpack _).
  - done.
  - by vm_compute.
  - exists L. split; [done|]. split; [|by vm_compute]. destruct HL as [HL _].
    assert (mp_iter exn_.2 DIn [n1; sc] None = Ok L) as HL' by done. revert HL'. clear. vm_compute. intros [= <-]. done.
Qed.
Print Assumptions C20_one_categorical.
Print Assumptions C20_ordinal_refuted.
Print Assumptions C20_two_aspects_refuted.

(** ** C21 *)
Lemma mexists_mono cs dir noe fi h p h' p' a : pinv cs dir noe fi h p -> pinv cs dir noe fi h' p' ->
  1 <= length cs -> (forall e, e ∈ h -> e ∈ h') -> mexists p a -> mexists p' a.
Proof.
  intros H H' H1 Hsub. pose proof (pinv_asp _ _ _ _ _ _ H) as Has. pose proof (pinv_asp _ _ _ _ _ _ H') as Has'.
  rewrite !mexists_iff by (apply H || apply H'). rewrite (pi_fic _ _ _ _ _ _ H), (pi_fic _ _ _ _ _ _ H'), Has, Has'.
  destruct fi.
  - intros [Hl Hk]. split; [done|]. intros k x Hx. apply (pi_sl _ _ _ _ _ _ H' H1).
    destruct (proj1 (pi_sl _ _ _ _ _ _ H H1 k x) (Hk k x Hx)) as (e & He & Hm). eauto.
  - intros (x & l & Hl & -> & Hx). exists x, l. split; [done|]. split; [done|]. apply (pi_n2l _ _ _ _ _ _ H' eq_refl x l Hl).
    destruct (proj1 (pi_n2l _ _ _ _ _ _ H eq_refl x l Hl) Hx) as (e & He & Hm). eauto.
Qed.
(** A call that writes no link leaves all readings between existing node-layers alone. *)
Lemma silent_call cs dir noe fi h p o r p' : mhist cs dir noe fi h p -> mstep p o = (p', r) -> 1 <= length cs ->
  (forall l, mwrite (length cs) dir l (o, r) = None) -> forall a b, mexists p a -> mexists p b ->
  pget_pair p' a b = pget_pair p a b.
Proof.
  intros Hh E H1 HW a b Ha Hb. pose proof (mhist_inv _ _ _ _ _ _ Hh) as H.
  pose proof (mhist_inv _ _ _ _ _ _ (mhist_op _ _ _ _ _ _ _ _ _ Hh E)) as H'.
  pose proof (pi_wf _ _ _ _ _ _ H) as Hw. pose proof (pi_wf _ _ _ _ _ _ H') as Hw'.
  pose proof (pinv_asp _ _ _ _ _ _ H) as Has. pose proof (pinv_asp _ _ _ _ _ _ H') as Has'.
  assert (forall c, mexists p c -> mexists p' c) as Hmono.
  { intros c. eapply mexists_mono; [done|done|done|]. intros e He. apply elem_of_app. by left. }
  destruct (mexists_psl p a Hw Ha) as (Hla & _ & Hma & _). destruct (mexists_psl p b Hw Hb) as (Hlb & _).
  destruct (mexists_psl p' a Hw' (Hmono a Ha)) as (_ & _ & Hma' & _).
  destruct (inter_aspects a b) as [|d [|]] eqn:Ei.
  1, 3: unfold pget_pair; rewrite Ei; by rewrite (pi_noe _ _ _ _ _ _ H), (pi_noe _ _ _ _ _ _ H').
  apply inter_aspects_single in Ei; [|congruence]. destruct d as [|d].
  - rewrite !pget_pair_intra by done. destruct (Hma ltac:(lia)) as (m & Hm & _). destruct (Hma' ltac:(lia)) as (m' & Hm' & _).
    rewrite Hm, Hm'. rewrite Has in Hm. rewrite Has' in Hm'.
    rewrite (view_get _ _ _ _ _ _ _ _ _ _ H Hm), (view_get _ _ _ _ _ _ _ _ _ _ H' Hm'). rewrite mspec_app. unfold mspec_step.
    by rewrite HW.
  - rewrite (pget_pair_coup_ex p d a b), (pget_pair_coup_ex p' d a b) by auto. unfold cread.
    rewrite (pi_coup _ _ _ _ _ _ H), (pi_coup _ _ _ _ _ _ H'), (pi_noe _ _ _ _ _ _ H), (pi_noe _ _ _ _ _ _ H'). done.
Qed.
Lemma psl_mhas p k x : psl p k x <-> mhas p k x.
Proof. unfold psl, mhas, mget_layers. destruct (mslices p !! k); naive_solver. Qed.

(** A write that names a coupling link, a self-link or an unrelated pair raises
    KeyError; no link between existing node-layers changes; the named nodes and
    elementary layers are added nevertheless. *)
Theorem C21_rejected_write cs dir noe fi h p item a b w p' r : mhist cs dir noe fi h p -> 1 <= length cs ->
  names_link (length cs) item a b -> ~ (tail a = tail b /\ node_of a <> node_of b) ->
  mstep p (MSet item w) = (p', r) ->
  r = Err KeyError /\
  (forall x y, mexists p x -> mexists p y ->
     (forall v, mreads p' x y v <-> mreads p x y v) /\ (forall e, mraises p' x y e <-> mraises p x y e)) /\
  (forall k x, mhas p' k x <-> mhas p k x \/ a !! k = Some x \/ b !! k = Some x) /\
  (forall x, mexists p x -> mexists p' x).
Proof.
  intros Hh H1 Hn Hni E. pose proof (mhist_inv _ _ _ _ _ _ Hh) as H. pose proof (pinv_asp _ _ _ _ _ _ H) as Has.
  pose proof (mhist_inv _ _ _ _ _ _ (mhist_op _ _ _ _ _ _ _ _ _ Hh E)) as H'. pose proof (pinv_asp _ _ _ _ _ _ H') as Has'.
  assert (write_of (length cs) (OpSet item w) = Some (a, b, w)) as Hwo. { apply writes_spec. simpl. done. }
  destruct (write_of_length _ _ _ _ _ Hwo) as [Ha Hb].
  assert (hviews p) as Hv. { intros l m Hm. destruct (pi_view _ _ _ _ _ _ H l m Hm) as (g & Hg & _). exists g. by rewrite (pi_dir _ _ _ _ _ _ H). }
  pose proof E as E'. rewrite mstep_set, Has, Hwo in E'. rewrite <- Has in Ha, Hb.
  destruct (passign_meff p a b w p' r (pi_wf _ _ _ _ _ _ H) Hv Ha Hb E') as [Hme Hr].
  assert (~ intra_pair (maspects p) a b) as Hnp by (intros (_ & ? & ?); tauto).
  assert (forall x, mexists p x -> mexists p' x) as Hmono.
  { intros c. eapply mexists_mono; [done|done|done|]. intros e He. apply elem_of_app. by left. }
  split; [|split; [|split]].
  - rewrite Hr, decide_False by lia. by rewrite decide_False.
  - intros x y Hx Hy.
    assert (pget_pair p' x y = pget_pair p x y) as Hp.
    { eapply silent_call; [exact Hh|exact E|done| |done|done]. intros l. unfold mwrite. cbn [fst]. rewrite Hwo. unfold wl.
      rewrite <- Has. rewrite decide_False; [done|]. intros (G1 & G2 & G3 & G4). apply Hnp. split; [done|]. split; [|done].
      apply (player_inj (maspects p)); [done..|congruence]. }
    destruct (mexists_psl p x (pi_wf _ _ _ _ _ _ H) Hx) as (Hlx & _). destruct (mexists_psl p y (pi_wf _ _ _ _ _ _ H) Hy) as (Hly & _).
    assert (maspects p' = maspects p) as He by congruence.
    split; intros v; rewrite ?mreads_pair, ?mraises_pair by congruence; by rewrite Hp.
  - intros k x. rewrite <- !psl_mhas. rewrite (me_sl _ _ _ _ _ Hme). rewrite decide_False by lia. done.
  - done.
Qed.
Theorem C21_accepted_write cs dir noe fi h p item a b w p' r : mhist cs dir noe fi h p -> 1 <= length cs ->
  names_link (length cs) item a b -> tail a = tail b -> node_of a <> node_of b ->
  mstep p (MSet item w) = (p', r) -> r = Ok tt /\ mreads p' a b w.
Proof.
  intros Hh H1 Hn Ht Hne E. pose proof (mhist_inv _ _ _ _ _ _ Hh) as H. pose proof (pinv_asp _ _ _ _ _ _ H) as Has.
  pose proof (mhist_inv _ _ _ _ _ _ (mhist_op _ _ _ _ _ _ _ _ _ Hh E)) as H'. pose proof (pinv_asp _ _ _ _ _ _ H') as Has'.
  assert (write_of (length cs) (OpSet item w) = Some (a, b, w)) as Hwo. { apply writes_spec. simpl. done. }
  destruct (write_of_length _ _ _ _ _ Hwo) as [Ha Hb].
  assert (hviews p) as Hv. { intros l m Hm. destruct (pi_view _ _ _ _ _ _ H l m Hm) as (g & Hg & _). exists g. by rewrite (pi_dir _ _ _ _ _ _ H). }
  pose proof E as E'. rewrite mstep_set, Has, Hwo in E'.
  destruct (passign_meff p a b w p' r (pi_wf _ _ _ _ _ _ H) Hv ltac:(congruence) ltac:(congruence) E') as [Hme Hr].
  split; [rewrite Hr, decide_False by lia; rewrite decide_True; [done|]; split; [lia|done]|].
  assert (exists i j l, mlayer_form (length cs) l /\ a = nl_of i l /\ b = nl_of j l /\ i <> j) as (i & j & l & Hl & -> & -> & Hij).
  { exists (node_of a), (node_of b), (player_of (length cs) a). split; [by apply player_form|].
    assert (player_of (length cs) a = player_of (length cs) b) as Hp.
    { rewrite <- !lkey_player by done. by rewrite Ht. }
    split; [rewrite nl_of_player; [done|]; by destruct a|]. split; [|done]. rewrite Hp, nl_of_player; [done|]. by destruct b. }
  pose proof (nl_of_form _ i l Hl) as (Hi1 & Hi2 & Hi3 & Hi4). pose proof (nl_of_form _ j l Hl) as (Hj1 & Hj2 & Hj3 & Hj4).
  apply (mreads_intra _ _ _ _ _ _ _ _ _ _ H' Hl Hij). 
  assert (mexists p' (nl_of i l)) as Hex.
  { apply mexists_iff; [apply H'|]. rewrite (pi_fic _ _ _ _ _ _ H'), Has'. destruct fi.
    - split; [done|]. intros k x Hk. apply (pi_sl _ _ _ _ _ _ H' H1). exists (MSet item w, r). split; [apply elem_of_app; right; by apply elem_of_list_singleton|].
      simpl. exists (nl_of i l), (nl_of j l), w. split; [done|by left].
    - exists i, l. split; [done|]. split; [done|]. apply (pi_n2l _ _ _ _ _ _ H' eq_refl i l Hl). exists (MSet item w, r).
      split; [apply elem_of_app; right; by apply elem_of_list_singleton|]. split; [done|]. simpl. eauto 10. }
  destruct (mexists_psl p' _ (pi_wf _ _ _ _ _ _ H') Hex) as (_ & _ & Hm & _). destruct (Hm ltac:(lia)) as (m & HA & _).
  rewrite lkey_player, Has', Hi3 in HA by (congruence || lia). rewrite HA. rewrite mspec_app. unfold mspec_step.
  unfold mwrite. cbn [fst]. rewrite Hwo. unfold wl. rewrite decide_True by (rewrite Hi3, Hj3, Hi4, Hj4; done).
  rewrite decide_True; [done|]. rewrite Hi4, Hj4. by left.
Qed.
(** The rejected write is not atomic. *)
Theorem C21_not_atomic_refuted : exists h p item w, mhist [CCat 2] true 0 false h p /\
  (mstep p (MSet item w)).2 = Err KeyError /\ ~ mhas p 0 (NInt 77) /\ mhas (mstep p (MSet item w)).1 0 (NInt 77) /\
  ~ mhas p 1 (NStr "new") /\ mhas (mstep p (MSet item w)).1 1 (NStr "new").
Proof.
  exists exn_.1, exn_.2, [NInt 77; NInt 77; sa; NStr "new"], 5%Z. split; [apply exn_hist|]. split; [by vm_compute|].
  assert (forall q k x, bool_decide (x ∈ default [] (mslices q !! k)) = true -> mhas q k x) as Hy.
  { intros q k x Hb%bool_decide_eq_true. unfold mhas, mget_layers. destruct (mslices q !! k) as [s|]; [by exists s|by apply elem_of_nil in Hb]. }
  assert (forall q k x, bool_decide (x ∈ default [] (mslices q !! k)) = false -> ~ mhas q k x) as Hno.
  { intros q k x Hb%bool_decide_eq_false. unfold mhas, mget_layers. destruct (mslices q !! k) as [s|]; intros (s' & [= <-] & ?). by apply Hb. }
  split_and!; [apply Hno|apply Hy|apply Hno|apply Hy]; by vm_compute.
Qed.
Example C21_example : names_link 2 [n1; n1; sa; sb; n1; n1] [n1; sa; n1] [n1; sb; n1] /\
  (mstep exf.2 (MSet [n1; n1; sa; sb; n1; n1] 4)).2 = Err KeyError /\ (mstep exf.2 (MSet [n1; NInt 9; sa; n1] 4)).2 = Ok tt.
Proof.
  split; [exact (names_link_full 2 [n1; sa; n1] [n1; sb; n1] eq_refl eq_refl)|]. split; by vm_compute.
Qed.
Print Assumptions C21_rejected_write.
Print Assumptions C21_accepted_write.
Print Assumptions C21_not_atomic_refuted.

(** ** C22 *)
(** Whatever noEdge is, the default reading on an existing layer is 0 ([mlast]);
    on a layer that does not exist it is noEdge. *)
Theorem C22_default_zero cs dir noe fi h p l i j w : mhist cs dir noe fi h p -> mlayer_form (length cs) l -> i <> j ->
  (l ∈ mlayers p -> mreads p (nl_of i l) (nl_of j l) w <-> mlast (length cs) dir h l i j w) /\
  (l ∉ mlayers p -> mreads p (nl_of i l) (nl_of j l) w <-> w = noe).
Proof.
  intros H%mhist_inv Hl Hne. pose proof (pinv_asp _ _ _ _ _ _ H) as Has. pose proof (pi_wf _ _ _ _ _ _ H) as Hw.
  rewrite (mreads_intra _ _ _ _ _ _ _ _ _ _ H Hl Hne), mlast_iff by done.
  rewrite (elem_of_mlayers p l Hw), Has. split.
  - intros [Hi _]. rewrite <- Has in Hl. by destruct (lay_pA p l Hw Hi Hl) as [m ->].
  - intros Hno. destruct (pA p l) as [m|] eqn:Hm; [|done]. exfalso. apply Hno. split; [|done].
    unfold pA in Hm. destruct (dget (mA p) l) as [m0|] eqn:E; [|done]. apply (pw_dom p Hw). apply elem_of_dkeys. by exists m0.
Qed.
(** Writing noEdge <> 0 stores a link: iterating over the neighbours of [i] within
    the layer yields [j]. *)
Theorem C22_noEdge_write_stores cs dir noe fi h p l i j item p' r : mhist cs dir noe fi h p -> noe <> 0%Z ->
  1 <= length cs -> mlayer_form (length cs) l -> i <> j -> names_link (length cs) item (nl_of i l) (nl_of j l) ->
  mstep p (MSet item noe) = (p', r) ->
  r = Ok tt /\ mreads p' (nl_of i l) (nl_of j l) noe /\
  exists L, mp_iter p' DOut (nl_of i l) (Some (None :: (Some <$> tail (nl_of i l)))) = Ok L /\ nl_of j l ∈ L.
Proof.
  intros Hh Hnz H1 Hl Hne Hn E. pose proof (nl_of_form _ i l Hl) as (Hi1 & Hi2 & Hi3 & Hi4). pose proof (nl_of_form _ j l Hl) as (Hj1 & Hj2 & Hj3 & Hj4).
  assert (tail (nl_of i l) = tail (nl_of j l)) as Ht by by destruct l.
  destruct (C21_accepted_write _ _ _ _ _ _ _ _ _ _ _ _ Hh H1 Hn Ht ltac:(congruence) E) as [-> Hr]. split; [done|]. split; [done|].
  pose proof (mhist_inv _ _ _ _ _ _ (mhist_op _ _ _ _ _ _ _ _ _ Hh E)) as H'. pose proof (pinv_asp _ _ _ _ _ _ H') as Has'.
  assert (l ∈ mlayers p') as Hll.
  { assert (mlast (length cs) dir (h ++ [(MSet item noe, Ok tt)]) l i j noe) as Hla.
    { left. exists h, (MSet item noe, Ok tt), []. split; [done|]. split; [left; done|]. by intros e' w' He%elem_of_nil. }
    apply (proj1 (mlast_iff _ _ _ _ _ _ _ Hl Hne)) in Hla. destruct (pA p' l) as [m|] eqn:Hm.
    - apply elem_of_mlayers; [apply H'|]. split; [|by rewrite Has'].
      unfold pA in Hm. destruct (dget (mA p') l) as [m0|] eqn:E0; [|done]. apply (pw_dom p' (pi_wf _ _ _ _ _ _ H')). apply elem_of_dkeys. by exists m0.
    - exfalso. rewrite (pi_none _ _ _ _ _ _ H' l Hm) in Hla. done. }
  apply elem_of_mlayers in Hll as [Hl1 Hl2]; [|apply H']. destruct (lay_pA p' l (pi_wf _ _ _ _ _ _ H') Hl1 Hl2) as [m Hm].
  assert (pdir p' DOut = DOut) as Hd by by (unfold pdir; destruct (mdir p')).
  unfold mp_iter. rewrite Hd. unfold piter.
  assert (select_dims p' (nl_of i l) (Some (None :: (Some <$> tail (nl_of i l)))) = [0]) as ->.
  { assert (dims_of (maspects p') (Some (None :: (Some <$> tail (nl_of i l)))) (nl_of i l)) as Hdo.
    { split.
      - rewrite Has', <- Hi1. destruct (nl_of i l); simpl; [done|]. by rewrite fmap_length.
      - intros [|k] x Hk; [done|]. destruct (nl_of i l) as [|y t]; [done|]. change ((Some <$> t) !! k = Some (Some x)) in Hk.
        rewrite list_lookup_fmap in Hk. simpl. destruct (t !! k); simpl in Hk; congruence. }
    destruct (select_dims_spec p' _ _ Hdo ltac:(congruence)) as [Hnd Hsel].
    assert (forall d, d ∈ select_dims p' (nl_of i l) (Some (None :: (Some <$> tail (nl_of i l)))) <-> d = 0) as Hz.
    { intros d. rewrite Hsel. split; [|intros ->; split; [lia|done]]. intros [_ Hd0]. destruct d as [|d]; [done|].
      change ((Some <$> tail (nl_of i l)) !! d = Some None) in Hd0. rewrite list_lookup_fmap in Hd0. by destruct (tail (nl_of i l) !! d). }
    revert Hnd Hz. generalize (select_dims p' (nl_of i l) (Some (None :: (Some <$> tail (nl_of i l))))). intros S Hnd Hz.
    destruct S as [|x [|y S]].
    - exfalso. apply (not_elem_of_nil 0). by apply Hz.
    - f_equal. apply Hz. left.
    - exfalso. assert (x = 0) as -> by (apply Hz; left). assert (y = 0) as -> by (apply Hz; right; left).
      apply NoDup_cons in Hnd as [Hnd _]. apply Hnd. left. }
  simpl. rewrite lkey_player, Has', Hi3, Hm by (congruence || lia). eexists. split; [done|]. simpl. rewrite app_nil_r.
  apply elem_of_list_fmap. exists [j]. split; [by destruct l|]. rewrite Hi4.
  destruct (pi_view _ _ _ _ _ _ H' _ _ Hm) as (g & Hg & _). pose proof (hist_good _ _ _ _ _ _ Hg) as Hgd.
  destruct (hist_inv _ _ _ _ _ _ Hg) as [_ _ Hma Hmn _ _].
  apply (iter_out_exact m [i] None Hgd I). split; [|done]. apply linked_lnk; [done|]. apply rd_noEdge; [done|]. rewrite Hmn.
  apply (mreads_intra _ _ _ _ _ _ _ _ _ _ H' Hl Hne) in Hr. rewrite Hm in Hr. rewrite <- (view_get _ _ _ _ _ _ _ _ _ _ H' Hm) in Hr.
  change (get_link m [i; j]) with (weight m [i] [j]) in Hr. rewrite weight_rd in Hr by done. by rewrite <- Hr.
Qed.
Definition exnoe := mcalls (new_mpx [CCat 1] false 7 true) [MSet [n1; n2; sa] 7; MSet [n1; n3; sa] 5].
Example C22_example : mhist [CCat 1] false 7 true exnoe.1 exnoe.2 /\
  mreads exnoe.2 [n1; sa] [n2; sa] 7 /\ mreads exnoe.2 [n2; sa] [n3; sa] 0 /\ mreads exnoe.2 [n1; sb] [n2; sb] 7 /\
  mp_iter exnoe.2 DOut [n1; sa] (Some [None; Some sa]) = Ok [[n2; sa]; [n3; sa]].
Proof.
  split; [apply mcalls_hist|]. split; [exists [n1; n2; sa]; split; [exact (names_short 1 n1 n2 [sa] eq_refl)|by vm_compute]|].
  split; [exists [n2; n3; sa]; split; [exact (names_short 1 n2 n3 [sa] eq_refl)|by vm_compute]|].
  split; [exists [n1; n2; sb]; split; [exact (names_short 1 n1 n2 [sb] eq_refl)|by vm_compute]|by vm_compute].
Qed.
Print Assumptions C22_default_zero.
Print Assumptions C22_noEdge_write_stores.

(** ** C51 *)
Theorem C51_nodes_layers_exact cs dir noe fi h p : mhist cs dir noe fi h p -> 1 <= length cs ->
  forall k x, mhas p k x <-> exists e, e ∈ h /\ mmentions (length cs) fi e k x.
Proof. intros H%mhist_inv H1 k x. rewrite <- psl_mhas. by apply H. Qed.
Theorem C51_node_layers_exact cs dir noe fi h p : mhist cs dir noe fi h p -> 1 <= length cs ->
  forall a, mexists p a <->
    if fi then length a = S (length cs) /\ (forall k x, a !! k = Some x -> exists e, e ∈ h /\ mmentions (length cs) true e k x)
    else exists e x l, e ∈ h /\ mcreates (length cs) e x l /\ a = nl_of x l.
Proof.
  intros H%mhist_inv H1 a. rewrite mexists_iff by apply H. rewrite (pi_fic _ _ _ _ _ _ H), (pinv_asp _ _ _ _ _ _ H). destruct fi.
  - setoid_rewrite (pi_sl _ _ _ _ _ _ H H1). done.
  - split.
    + intros (x & l & Hl & -> & Hx). destruct (proj1 (pi_n2l _ _ _ _ _ _ H eq_refl x l Hl) Hx) as (e & He & Hc). by exists e, x, l.
    + intros (e & x & l & He & Hc & ->). assert (mlayer_form (length cs) l) as Hl by apply Hc.
      exists x, l. split; [done|]. split; [done|]. apply (pi_n2l _ _ _ _ _ _ H eq_refl x l Hl). by exists e.
Qed.
(** Every node-layer is listed once, and an existing node-layer belongs to an existing layer. *)
Theorem C51_layers_exact cs dir noe fi h p : mhist cs dir noe fi h p -> 1 <= length cs ->
  forall l, l ∈ mlayers p <-> mlayer_form (length cs) l /\
    forall k x, tail (nl_of (NInt 0) l) !! k = Some x -> mhas p (S k) x.
Proof.
  intros H%mhist_inv H1 l. pose proof (pinv_asp _ _ _ _ _ _ H) as Has. rewrite elem_of_mlayers by apply H. rewrite Has.
  setoid_rewrite <- psl_mhas. destruct l as [y|ls]; simpl; rewrite Has.
  - split.
    + intros ([_ Hp] & Hl). split; [done|]. intros [|k] x; simpl; [by intros [= <-]|by rewrite lookup_nil].
    + intros [Hl Hp]. split; [|done]. split; [done|]. by apply (Hp 0).
  - split.
    + intros ([_ Hp] & Hl). done.
    + intros [Hl Hp]. split; [|done]. split; [lia|done].
Qed.
Example C51_example : mexists exn_.2 [n3; sc] /\ ~ mexists exn_.2 [n3; sa] /\ mexists exf.2 [NInt 9; sb; NInt 3] /\
  mhas exn_.2 1 sb.
Proof.
  split; [eexists; split; [by vm_compute|]; by apply (bool_decide_unpack _)|].
  split; [intros (L & HL & Hin); revert Hin; assert (L = [[n1; sa]; [n2; sa]; [n2; sb]; [n1; sb]; [n1; sc]; [n3; sc]]) as -> by (revert HL; vm_compute; congruence); by apply (bool_decide_unpack _)|].
  split; [eexists; split; [by vm_compute|]; by apply (bool_decide_unpack _)|].
  eexists; split; [by vm_compute|]; by apply (bool_decide_unpack _).
Qed.
Print Assumptions C51_nodes_layers_exact.
Print Assumptions C51_node_layers_exact.
Print Assumptions C51_layers_exact.
