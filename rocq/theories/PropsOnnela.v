(** * Property C102: Onnela's clustering coefficient *)
From Coq Require Import Lqa.
From Verif Require Import CcAvg PropsNet PropsTrans NetIter NetEdges TransFacts CcFacts PropsCc PropsBat PropsContr PropsZhang.
Open Scope Z_scope.

Lemma qs_app l1 l2 : (qsum (l1 ++ l2) == qsum l1 + qsum l2)%Q.
Proof. unfold qsum. induction l1 as [|x l1 IH]; simpl; [ring|]. rewrite IH. ring. Qed.
Lemma qs_perm l l' : Permutation l l' -> (qsum l == qsum l')%Q.
Proof. unfold qsum. induction 1 as [|x l l' _ IH|x y l|l l' l'' _ IH1 _ IH2]; simpl; [done|by rewrite IH|ring|by rewrite IH1]. Qed.
Lemma qs_ext {A} (f g : A -> Q) l : (forall x, x ∈ l -> (f x == g x)%Q) -> (qsum (f <$> l) == qsum (g <$> l))%Q.
Proof.
  unfold qsum. induction l as [|x l IH]; intros H; [done|]. simpl. rewrite (H x) by left. rewrite IH; [done|]. intros y Hy. apply H. by right.
Qed.
Lemma qs_filter {A} (P : A -> Prop) `{forall x, Decision (P x)} (f : A -> Q) l :
  (qsum (f <$> filter P l) == qsum ((fun x => if decide (P x) then f x else 0) <$> l))%Q.
Proof.
  unfold qsum. induction l as [|x l IH]; [done|]. rewrite filter_cons, fmap_cons. cbn [foldr]. destruct (decide (P x)); [rewrite fmap_cons; cbn [foldr]; by rewrite IH|by rewrite IH, Qplus_0_l].
Qed.
Lemma qs_bounds (l : list Q) M : (forall x, x ∈ l -> (0 <= x <= M)%Q) -> (0 <= qsum l <= inject_Z (Z.of_nat (length l)) * M)%Q.
Proof.
  unfold qsum. induction l as [|x l IH]; intros H; [split; [apply Qle_refl|]; change (inject_Z (Z.of_nat (length []))) with 0%Q; rewrite Qmult_0_l; apply Qle_refl|]. cbn [foldr length].
  assert (0 <= x <= M)%Q as Hx by (apply H; left). destruct IH as [I1 I2]; [intros y Hy; apply H; by right|].
  rewrite Nat2Z.inj_succ. unfold Z.succ. rewrite inject_Z_plus. change (inject_Z 1) with 1%Q. split; [lra|].
  assert ((inject_Z (Z.of_nat (length l)) + 1) * M == inject_Z (Z.of_nat (length l)) * M + M)%Q as -> by ring. lra.
Qed.
Definition swp {A} (q : A * A) : A * A := (q.2, q.1).
Lemma pairs2_NoDup {A} (T : list A) : NoDup T -> NoDup (pairs2 T).
Proof.
  induction 1 as [|x T Hx HT IH]; [constructor|]. cbn [pairs2]. apply NoDup_app. split; [apply NoDup_fmap; [by intros ?? [= ?]|done]|]. split; [|done].
  intros q (y & -> & Hy)%elem_of_list_fmap Hq%pairs2_elem. by destruct Hq.
Qed.
Lemma pairs2_or {A} (T : list A) x y : x ∈ T -> y ∈ T -> x <> y -> (x, y) ∈ pairs2 T \/ (y, x) ∈ pairs2 T.
Proof.
  induction T as [|z T IH]; [by intros ?%elem_of_nil|]. cbn [pairs2]. rewrite !elem_of_cons, !elem_of_app. intros [->|Hx] [->|Hy] Hne; [done|..].
  - left. left. apply elem_of_list_fmap. eauto.
  - right. left. apply elem_of_list_fmap. eauto.
  - destruct (IH Hx Hy Hne); auto.
Qed.
Lemma pairs2_one {A} (T : list A) x y : NoDup T -> (x, y) ∈ pairs2 T -> (y, x) ∉ pairs2 T.
Proof.
  induction 1 as [|z T Hz HT IH]; cbn [pairs2]; [by intros ?%elem_of_nil|]. rewrite !elem_of_app, !elem_of_list_fmap.
  intros [(u & [= -> ->] & Hu)|H1] [(v & [= -> ->] & Hv)|H2].
  - done.
  - by apply pairs2_elem in H2 as [_ ?].
  - by apply pairs2_elem in H1 as [_ ?].
  - by apply IH.
Qed.
Lemma both_exact {A} (T : list A) : NoDup T -> lists_exactly (pairs2 T ++ (swp <$> pairs2 T)) (fun q => q.1 ∈ T /\ q.2 ∈ T /\ q.1 <> q.2).
Proof.
  intros HT. split.
  - apply NoDup_app. split; [by apply pairs2_NoDup|]. split; [|apply NoDup_fmap; [intros [] [] [= ? ?]; congruence|by apply pairs2_NoDup]].
    intros [x y] H1 ([u v] & [= -> ->] & H2)%elem_of_list_fmap. by apply (pairs2_one T v u) in H1.
  - intros [x y]. rewrite elem_of_app, elem_of_list_fmap. split.
    + intros [Hq|([u v] & [= -> ->] & Hq)]; pose proof (pairs2_ne _ _ HT Hq) as Hn; destruct (pairs2_elem _ _ Hq); simpl in *; auto.
    + intros (Hx & Hy & Hn). destruct (pairs2_or T x y Hx Hy Hn) as [?|?]; [by left|]. right. by exists (y, x).
Qed.

(** [L] lists the neighbours of [x], [P] the ordered pairs of distinct neighbours that are
    linked, [W] gives all weights, [M] is the largest weight. *)
Theorem C102_onnela noe fi h n x L P W root : hist 0 noe false fi h n -> lists_exactly L (fun y => linked n [x] [y]) ->
  lists_exactly P (fun jk => linked n [x] [jk.1] /\ linked n [x] [jk.2] /\ jk.1 <> jk.2 /\ linked n [jk.1] [jk.2]) ->
  (forall i j, reads n [i] [j] (W i j)) ->
  ((forall a b, ~ linked n a b) -> cc_onnela root n [x] = Err ValueError) /\
  (forall M, max_link n M ->
     let k := Z.of_nat (length L) in
     ((length L < 2)%nat -> cc_onnela root n [x] = Ok None) /\
     ((2 <= length L)%nat -> M = 0 -> cc_onnela root n [x] = Err ZeroDivisionError) /\
     ((2 <= length L)%nat -> M <> 0 -> exists q, cc_onnela root n [x] = Ok (Some q) /\
        (q == foldr Qplus 0 ((fun jk => root (W x (jk.1) * W x (jk.2) * W (jk.1) (jk.2))%Z) <$> P) / inject_Z (M * (k * (k - 1))))%Q)).
Proof.
  intros Hh HL HP HW. pose proof (hist0 _ _ _ _ Hh) as (Hg & Ha & Hn & Hd).
  assert (forall i j, W i j = rd n [i] [j]) as HW' by (intros i j; apply (reads_rd n [i] [j]); rewrite ?Ha; done).
  pose proof (names_lists n x L Ha HL) as HL'. pose proof (u_perm n Hg Hd [x] _ HL') as HPT.
  assert (degree n [x] None = Z.of_nat (length L)) as Hdeg by (by rewrite (u_deg n Hd [x]), <- (Permutation_length HPT), fmap_length).
  set (T := iter_total n [x] None) in *.
  pose (g := fun q : nl * nl => if decide (weight n (q.1) (q.2) = noEdge n) then 0%Q else root (weight n [x] (q.1) * weight n [x] (q.2) * weight n (q.1) (q.2))).
  assert (HT : forall b, b ∈ T <-> exists y, b = [y] /\ linked n [x] [y]).
  { intros b. rewrite <- HPT, elem_of_list_fmap. split; intros (y & -> & Hy); exists y; (split; [done|]); by apply HL. }
  assert (Hnom : (2 * qsum (g <$> pairs2 T) == foldr Qplus 0 ((fun jk => root (W x (jk.1) * W x (jk.2) * W (jk.1) (jk.2))%Z) <$> P))%Q).
  { pose proof (u_NoDup n Hg [x]) as HTn. fold T in HTn. destruct (both_exact T HTn) as [HB1 HB2]. set (PP := pairs2 T ++ (swp <$> pairs2 T)) in *.
    assert (E1 : (2 * qsum (g <$> pairs2 T) == qsum (g <$> PP))%Q).
    { unfold PP. rewrite fmap_app, qs_app, <- list_fmap_compose. rewrite (qs_ext (g ∘ swp) g); [ring|]. intros [b c] Hq. destruct (pairs2_elem _ _ Hq) as [Hb Hc]. cbn [fst snd] in *.
      apply HT in Hb as (u & -> & _), Hc as (v & -> & _). unfold g, swp, compose. cbn [fst snd]. rewrite !weight_rd by done. rewrite (rd_sym n [v] [u]) by done.
      rewrite (Z.mul_comm (rd n [x] [v])). done. }
    rewrite E1. transitivity (qsum ((fun q : nl * nl => root (weight n [x] (q.1) * weight n [x] (q.2) * weight n (q.1) (q.2))) <$> filter (fun q : nl * nl => weight n (q.1) (q.2) <> noEdge n) PP)).
    { rewrite qs_filter. apply qs_ext. intros q _. unfold g. destruct (decide (weight n (q.1) (q.2) = noEdge n)), (decide (weight n (q.1) (q.2) <> noEdge n)); done. }
    assert (Permutation (filter (fun q : nl * nl => weight n (q.1) (q.2) <> noEdge n) PP) ((fun jk : name * name => ([jk.1], [jk.2])) <$> P)) as HPP.
    { apply NoDup_Permutation; [by apply NoDup_filter|apply NoDup_fmap; [intros [] [] [= ? ?]; congruence|apply HP]|]. intros [b c].
      rewrite elem_of_list_filter, HB2, elem_of_list_fmap. cbn [fst snd]. rewrite !HT. split.
      - intros (Hw & (u & -> & Hu) & (v & -> & Hv) & Hne). exists (u, v). split; [done|]. apply HP. cbn [fst snd]. split; [done|]. split; [done|]. split; [congruence|].
        apply linked_rd; [done|]. by rewrite <- weight_rd.
      - intros ([u v] & [= -> ->] & Hq). apply HP in Hq as (Hu & Hv & Hne & Hl). cbn [fst snd] in *. split; [|naive_solver congruence].
        apply linked_rd in Hl; [|done]. by rewrite weight_rd. }
    rewrite (qs_perm _ _ (fmap_Permutation _ _ _ HPP)), <- list_fmap_compose. apply (qs_ext (A := name * name)). intros [u v] _. unfold compose. cbn [fst snd].
    by rewrite !weight_rd, !HW' by done. }
  unfold cc_onnela. rewrite Hdeg. fold T. split.
  - intros Hno. destruct (max_weight_cases n Hg Hd) as [[-> _]|(M & _ & (a & b & Hl & _) & _)]; [done|]. by apply Hno in Hl.
  - intros M HM. cbv zeta. destruct (max_weight_cases n Hg Hd) as [[_ Hno]|(M' & -> & HM')]; [destruct HM as [(a & b & Hl & _) _]; by apply Hno in Hl|].
    rewrite (max_link_fun _ _ _ HM' HM). cbn [rbind]. set (k := Z.of_nat (length L)).
    split_and!; [intros Hlt; by rewrite decide_False by (unfold k; lia)|..]; intros Hge; rewrite decide_True by (unfold k; lia).
    all: assert (forall z, z <> 0 -> ~ (inject_Z z == 0)%Q) as Hz by (intros z Hz; unfold Qeq; simpl; lia).
    all: assert (forall u z, z <> 0 -> fdiv u (inject_Z z) = Ok (u / inject_Z z)%Q) as Hf
      by (intros u z Hz0; unfold fdiv; destruct (Qeq_bool _ _) eqn:E; [apply Qeq_bool_iff in E; by apply Hz in Hz0|done]).
    all: assert (k * (k - 1) <> 0) as Hk by (unfold k; nia).
    + intros ->. rewrite (Hf _ _ Hk). done.
    + intros HM0. rewrite (Hf _ _ Hk). cbn [rbind]. rewrite (Hf _ _ HM0). cbn [rbind]. eexists. split; [done|].
      rewrite <- Hnom. change (fun q : nl * nl => if decide (weight n q.1 q.2 = noEdge n) then 0%Q else root (weight n [x] q.1 * weight n [x] q.2 * weight n q.1 q.2)) with g.
      rewrite !(inject_Z_mult M). field. split; by apply Hz.
Qed.
Lemma pairs_count {A} `{EqDecision A} (L : list A) (P : list (A * A)) : NoDup L -> NoDup P ->
  (forall q, q ∈ P -> q.1 ∈ L /\ q.2 ∈ L /\ q.1 <> q.2) -> Z.of_nat (length P) <= Z.of_nat (length L) * (Z.of_nat (length L) - 1).
Proof.
  intros HL HP Hq. destruct (both_exact L HL) as [HB1 HB2].
  assert (length P <= length (pairs2 L ++ (swp <$> pairs2 L)))%nat as Hle.
  { apply submseteq_length, NoDup_submseteq; [done|]. intros q Hin. apply HB2. by apply Hq. }
  assert (Z.of_nat (length (pairs2 L ++ (swp <$> pairs2 L))) = Z.of_nat (length L) * (Z.of_nat (length L) - 1)) as <-; [|lia].
  rewrite app_length, fmap_length. clear. induction L as [|x L IH]; [done|]. cbn [pairs2]. rewrite app_length, fmap_length. cbn [length]. lia.
Qed.
(** Positive weights and any approximation [root] of the cube root that is not negative and not
    above [c] up to [c*c*c]: the value is between 0 and 1. *)
Theorem C102_bounds noe fi h n x L root : hist 0 noe false fi h n -> positive n ->
  (forall z c, 0 < z <= c * c * c -> (0 <= root z <= inject_Z c)%Q) ->
  lists_exactly L (fun y => linked n [x] [y]) -> (2 <= length L)%nat ->
  exists q, cc_onnela root n [x] = Ok (Some q) /\ (0 <= q <= 1)%Q.
Proof.
  intros Hh Hpos Hroot HL H2. set (W := fun i j => rd n [i] [j]). pose proof (hist0 _ _ _ _ Hh) as (Hg & Ha & Hn & Hd).
  assert (forall i j, reads n [i] [j] (W i j)) as HW by (intros i j; apply reads_rd; rewrite ?Ha; done).
  assert (exists M, max_link n M) as [M HM].
  { destruct (max_weight_cases n Hg Hd) as [[_ Hno]|(M & _ & HM)]; [|eauto]. destruct L as [|y L]; simpl in H2; [lia|]. exfalso. apply (Hno [x] [y]). apply HL. left. }
  assert (forall i j, linked n [i] [j] -> 0 < W i j <= M) as Hp.
  { intros i j Hl. split; [by apply (Hpos [i] [j])|by apply (proj2 HM [i] [j])]. }
  assert (0 < M) as HM0 by (destruct HM as [(a & b & Hl & Hr) _]; by eapply Hpos).
  set (P := filter (fun jk : name * name => W (jk.1) (jk.2) <> noe) (pairs2 L ++ (swp <$> pairs2 L))).
  destruct (both_exact L (proj1 HL)) as [HB1 HB2].
  assert (lists_exactly P (fun jk => linked n [x] [jk.1] /\ linked n [x] [jk.2] /\ jk.1 <> jk.2 /\ linked n [jk.1] [jk.2])) as HP.
  { split; [by apply NoDup_filter|]. intros [u v]. unfold P. rewrite elem_of_list_filter, HB2. cbn [fst snd]. rewrite (proj2 HL u), (proj2 HL v), (linked_rd n [u] [v]) by done.
    rewrite Hn. unfold W. tauto. }
  destruct (C102_onnela _ _ _ _ _ _ _ _ root Hh HL HP HW) as [_ HO]. destruct (HO M HM) as (_ & _ & Hq). destruct (Hq H2 ltac:(lia)) as (q & E & Eq). exists q. split; [done|].
  destruct (qs_bounds ((fun jk => root (W x (jk.1) * W x (jk.2) * W (jk.1) (jk.2))%Z) <$> P) (inject_Z M)) as [B1 B2].
  { intros r ([u v] & -> & Hin)%elem_of_list_fmap. apply HP in Hin as (Hu%Hp & Hv%Hp & _ & Huv%Hp). cbn [fst snd] in *. apply Hroot.
    assert (0 < W x u * W x v) as H1 by nia. assert (W x u * W x v <= M * M) as H3 by nia. nia. }
  unfold qsum in B1, B2. rewrite fmap_length in B2. rewrite Eq. set (k := Z.of_nat (length L)) in *.
  assert (2 <= k) as Hk2 by (unfold k; lia).
  assert (0 < inject_Z (M * (k * (k - 1))))%Q as Hden by (unfold Qlt; simpl; nia).
  assert (Z.of_nat (length P) <= k * (k - 1)) as Hc.
  { apply pairs_count; [apply HL|apply HP|]. intros jk (H1 & H3 & H4 & _)%HP. split; [by apply HL|]. split; [by apply HL|done]. }
  split; [apply Qle_shift_div_l; [done|]; lra|apply Qle_shift_div_r; [done|]]. rewrite Qmult_1_l. eapply Qle_trans; [exact B2|].
  rewrite <- inject_Z_mult. rewrite <- Zle_Qle. nia.
Qed.
(** All links of weight [c] and a [root] that is right at [c*c*c]: the unweighted coefficient. *)
Theorem C102_equal_weights noe fi h n x L c root : hist 0 noe false fi h n -> c <> 0 -> (root (c * c * c)%Z == inject_Z c)%Q ->
  (forall a b w, linked n a b -> reads n a b w -> w = c) ->
  lists_exactly L (fun y => linked n [x] [y]) -> (2 <= length L)%nat ->
  exists q r, cc_onnela root n [x] = Ok (Some q) /\ lcc n [x] = Ok (Some r) /\ (q == r)%Q.
Proof.
  intros Hh Hc Hroot Hall HL H2. set (W := fun i j => rd n [i] [j]). pose proof (hist0 _ _ _ _ Hh) as (Hg & Ha & Hn & Hd).
  assert (forall i j, reads n [i] [j] (W i j)) as HW by (intros i j; apply reads_rd; rewrite ?Ha; done).
  assert (forall i j, linked n [i] [j] -> W i j = c) as Hp by (intros i j Hl; by apply (Hall [i] [j])).
  assert (max_link n c) as HM.
  { split; [|intros a b w Hl Hr; by rewrite (Hall _ _ _ Hl Hr)]. destruct L as [|y L]; simpl in H2; [lia|].
    assert (linked n [x] [y]) as Hl by (apply HL; left). exists [x], [y]. split; [done|]. rewrite <- (Hp x y Hl). apply HW. }
  pose proof (names_lists n x L Ha HL) as HL'.
  destruct (C40_local_clustering n [x] ((fun y => [y]) <$> L)) as [_ HC]; [by exists 0%nat, noe, false, fi, h|done|by rewrite Ha|done|].
  destruct HC as (r & P' & Er & HP' & Eqr & _); [by rewrite fmap_length|].
  set (P := (fun bc : nl * nl => (node_of (bc.1), node_of (bc.2))) <$> P').
  assert (Hform : forall b d, (b, d) ∈ P' -> exists u v, b = [u] /\ d = [v]).
  { intros b d (Hb & Hd' & _)%HP'. cbn [fst snd] in *. destruct Hb as (_ & Lb & _), Hd' as (_ & Ld & _). rewrite Ha in Lb, Ld.
    destruct b as [|u []]; try done. destruct d as [|v []]; try done. eauto. }
  assert (lists_exactly P (fun jk => linked n [x] [jk.1] /\ linked n [x] [jk.2] /\ jk.1 <> jk.2 /\ linked n [jk.1] [jk.2])) as HP.
  { split.
    - apply NoDup_fmap_2_strong; [|apply HP']. intros [b d] [b' d'] H1 H3. destruct (Hform _ _ H1) as (u & v & -> & ->), (Hform _ _ H3) as (u' & v' & -> & ->).
      cbn. congruence.
    - intros [u v]. unfold P. rewrite elem_of_list_fmap. split.
      + intros ([b d] & E & Hin). destruct (Hform _ _ Hin) as (u' & v' & -> & ->). cbn in E. injection E as -> ->. apply HP' in Hin as (? & ? & Hne & ?). cbn [fst snd] in *.
        split; [done|]. split; [done|]. split; [congruence|done].
      + intros (Hu & Hv & Hne & Huv). cbn [fst snd] in *. exists ([u], [v]). split; [done|]. apply HP'. cbn [fst snd]. split; [done|]. split; [done|]. split; [congruence|done]. }
  destruct (C102_onnela _ _ _ _ _ _ _ _ root Hh HL HP HW) as [_ HO]. destruct (HO c HM) as (_ & _ & Hq). destruct (Hq H2 Hc) as (q & E & Eq).
  exists q, r. split; [done|]. split; [done|]. rewrite Eq, Eqr. rewrite fmap_length.
  assert (foldr Qplus 0 ((fun jk => root (W x (jk.1) * W x (jk.2) * W (jk.1) (jk.2))%Z) <$> P) == inject_Z (Z.of_nat (length P')) * inject_Z c)%Q as ->.
  { assert (forall S, (forall jk, jk ∈ S -> jk ∈ P) -> (foldr Qplus 0 ((fun jk => root (W x (jk.1) * W x (jk.2) * W (jk.1) (jk.2))%Z) <$> S) == inject_Z (Z.of_nat (length S)) * inject_Z c)%Q) as HS.
    { induction S as [|jk S IH]; intros HS; [change (0 == 0 * inject_Z c)%Q; ring|]. rewrite fmap_cons. cbn [foldr length]. rewrite IH by (intros; apply HS; by right).
      destruct (proj1 (proj2 HP jk) (HS jk ltac:(left))) as (Hu & Hv & _ & Huv). rewrite !Hp by done. rewrite Hroot, Nat2Z.inj_succ. unfold Z.succ. rewrite inject_Z_plus. ring. }
    rewrite (HS P) by done. unfold P. by rewrite fmap_length. }
  rewrite Nat2Z.inj_mul, Nat2Z.inj_sub by lia. change (Z.of_nat 1) with 1. rewrite !inject_Z_mult. field.
  assert (forall z, z <> 0 -> ~ (inject_Z z == 0)%Q) as Hz by (intros z Hz; unfold Qeq; simpl; lia).
  split_and!; apply Hz; lia.
Qed.
(** The hypotheses are met: cube roots rounded up to the next integer, exact for cubes. *)
Fixpoint up (fuel : nat) (c z : Z) : Z := match fuel with O => c | S f => if decide (z <= c * c * c) then c else up f (c + 1) z end.
Definition root_up (z : Z) : Q := inject_Z (up (Z.to_nat z) 0 z).
Lemma up_bounds f c z c' : c <= c' -> z <= c' * c' * c' -> c <= up f c z <= c'.
Proof.
  revert c. induction f as [|f IH]; intros c Hc Hz; cbn [up]; [lia|]. destruct (decide (z <= c * c * c)) as [|Hn]; [lia|].
  assert (c <> c') as Hne by (intros ->; lia). specialize (IH (c + 1) ltac:(lia) Hz). lia.
Qed.
Lemma positive_edges noe fi h n : hist 0 noe false fi h n -> Forall (fun e => 0 < e.2) (edges n) -> positive n.
Proof.
  intros Hh HF. pose proof (hist0 _ _ _ _ Hh) as (Hg & Ha & Hn & Hd).
  intros a b w Hl Hr. destruct (edges_und_exact n Hg Hd) as (_ & _ & H2 & _). destruct (H2 a b Hl) as (e & He & Hc).
  assert (w = e.2) as ->.
  { destruct Hc as [(_ & _ & Hr')|(_ & _ & Hr')]; [by apply (reads_fun _ _ _ _ _ Hr)|]. destruct Hl as (La & Lb & _).
    apply reads_rd in Hr; [|done..]. apply reads_rd in Hr'; [|done..]. rewrite Hr, Hr'. by apply rd_sym. }
  rewrite Forall_forall in HF. by apply HF.
Qed.
Lemma neighbours_of noe fi h n x L : hist 0 noe false fi h n -> NoDup L -> iter_total n [x] None = (fun y => [y]) <$> L -> lists_exactly L (fun y => linked n [x] [y]).
Proof.
  intros Hh HL E. pose proof (hist0 _ _ _ _ Hh) as (Hg & Ha & Hn & Hd). split; [done|]. intros y. rewrite <- (u_T n Hg Hd [x] [y]), E, elem_of_list_fmap.
  split; [eauto|]. by intros (z & [= ->] & Hz).
Qed.
Definition ex_onn := [OpSet [A1; A2] 8; OpSet [A1; A3] 8; OpSet [A2; A3] 1; OpSet [A1; NInt 4] 2; OpSet [NInt 4; A3] 4].
Definition ex_onn_net := run (new_net 0 0 false true) ex_onn.
Example C102_example : (forall z c, 0 < z <= c * c * c -> (0 <= root_up z <= inject_Z c)%Q) /\
  (root_up 27 == 3)%Q /\
  hist 0 0 false true ex_onn ex_onn_net /\ positive ex_onn_net /\ lists_exactly [A2; A3; NInt 4] (fun y => linked ex_onn_net [A1] [y]) /\
  exists q, cc_onnela root_up ex_onn_net [A1] = Ok (Some q) /\ (q == 1 # 3)%Q.
Proof.
  split.
  { intros z c Hz. assert (0 <= c) as Hc by nia. destruct (up_bounds (Z.to_nat z) 0 z c Hc) as [H1 H2]; [lia|]. unfold root_up.
    change 0%Q with (inject_Z 0). by rewrite <- !Zle_Qle. }
  split; [by vm_compute|]. split; [apply run_hist0|]. split.
  { apply (positive_edges 0 true ex_onn); [apply run_hist0|]. apply (bool_decide_unpack _). vm_compute. exact I. }
  split.
  { apply (neighbours_of 0 true ex_onn); [apply run_hist0| |vm_compute; reflexivity]. apply (bool_decide_unpack _). vm_compute. exact I. }
  eexists. split; [vm_compute; reflexivity|by vm_compute].
Qed.
Print Assumptions C102_onnela.
Print Assumptions C102_bounds.
Print Assumptions C102_equal_weights.
