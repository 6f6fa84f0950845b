(** * C65: weighted clustering coefficients of networks without layers *)
From Verif Require Import Cc PropsNet PropsTrans NetIter NetEdges TransFacts CcFacts.
From Verif Require Import PropsCc PropsBat PropsContr.
Open Scope Z_scope.

(** ** Specification *)
(** Sum over ordered pairs of distinct elements. *)
Definition pair_sum {A} `{EqDecision A} (f : A -> A -> Z) (L : list A) : Z :=
  zsumf (fun j => zsumf (fun h => if decide (j = h) then 0 else f j h) L) L.
(** [M] is the largest weight of a link. *)
Definition max_link (n : mlnet) (M : Z) : Prop :=
  (exists a b, linked n a b /\ reads n a b M) /\ forall a b w, linked n a b -> reads n a b w -> w <= M.
(** All links have positive weights. *)
Definition positive (n : mlnet) : Prop := forall a b w, linked n a b -> reads n a b w -> 0 < w.

(** ** Facts *)
Lemma pair_sum_perm {A} `{EqDecision A} (f : A -> A -> Z) L L' : Permutation L L' -> pair_sum f L = pair_sum f L'.
Proof. intros HP. unfold pair_sum. rewrite (zsumf_perm _ _ _ HP). apply zsumf_ext. intros x _. by rewrite (zsumf_perm _ _ _ HP). Qed.
Lemma pair_sum_ext {A} `{EqDecision A} (f g : A -> A -> Z) L : (forall x y, x ∈ L -> y ∈ L -> x <> y -> f x y = g x y) -> pair_sum f L = pair_sum g L.
Proof. intros H. unfold pair_sum. apply zsumf_ext. intros x Hx. apply zsumf_ext. intros y Hy. destruct (decide (x = y)); [done|]. by apply H. Qed.
Lemma pair_sum_le {A} `{EqDecision A} (f g : A -> A -> Z) L : (forall x y, x ∈ L -> y ∈ L -> x <> y -> f x y <= g x y) -> pair_sum f L <= pair_sum g L.
Proof. intros H. unfold pair_sum. apply zsumf_le. intros x Hx. apply zsumf_le. intros y Hy. destruct (decide (x = y)); [lia|]. by apply H. Qed.
Lemma pair_sum_mul {A} `{EqDecision A} c (f : A -> A -> Z) L : pair_sum (fun x y => c * f x y) L = c * pair_sum f L.
Proof. unfold pair_sum. rewrite <- zsumf_mul_l. apply zsumf_ext. intros x _. rewrite <- zsumf_mul_l. apply zsumf_ext. intros y _. destruct (decide (x = y)); lia. Qed.
Lemma pair_sum_zero {A} `{EqDecision A} (L : list A) : pair_sum (fun _ _ => 0) L = 0.
Proof. unfold pair_sum. rewrite (zsumf_ext _ (fun _ => 0)); [rewrite zsumf_const; lia|]. intros x _. rewrite (zsumf_ext _ (fun _ => 0)); [rewrite zsumf_const; lia|]. intros y _. by destruct (decide (x = y)). Qed.
Lemma pair_sum_fmap {A B} `{EqDecision A} `{EqDecision B} (g : A -> B) `{!Inj (=) (=) g} (f : B -> B -> Z) L : pair_sum f (g <$> L) = pair_sum (fun x y => f (g x) (g y)) L.
Proof.
  unfold pair_sum. rewrite zsumf_fmap. apply zsumf_ext. intros x _. rewrite zsumf_fmap. apply zsumf_ext. intros y _.
  destruct (decide (x = y)) as [->|Hne]; [by rewrite decide_True|]. rewrite decide_False; [done|]. by intros ?%(inj g).
Qed.
Lemma pair_sum_pairs2 {A} `{EqDecision A} (f : A -> A -> Z) L : NoDup L -> (forall x y, x ∈ L -> y ∈ L -> f x y = f y x) ->
  pair_sum f L = 2 * zsumf (fun q => f (q.1) (q.2)) (pairs2 L).
Proof.
  intros HN Hs. unfold pair_sum.
  rewrite (zsumf_ext _ (fun x => zsumf ((fun x y => if decide (x = y) then 0 else if decide (x ∈ L /\ y ∈ L) then f x y else 0) x) L)).
  2:{ intros x Hx. apply zsumf_ext. intros y Hy. destruct (decide (x = y)); [done|]. by rewrite decide_True. }
  rewrite (zsumf_pairs2 (fun x y => if decide (x = y) then 0 else if decide (x ∈ L /\ y ∈ L) then f x y else 0)).
  - f_equal. apply zsumf_ext. intros q Hq. pose proof (pairs2_ne _ _ HN Hq). destruct (pairs2_elem _ _ Hq). rewrite decide_False by done. by rewrite decide_True.
  - intros x y. destruct (decide (x = y)) as [->|]; [by rewrite decide_True|]. rewrite (decide_False (P := y = x)) by congruence.
    destruct (decide (x ∈ L /\ y ∈ L)) as [[Hx Hy]|Hn], (decide (y ∈ L /\ x ∈ L)) as [Hn'|Hn']; [by apply Hs|tauto|tauto|done].
  - intros x _. by rewrite decide_True.
Qed.
(** Pairs with a vanishing term can be added. *)
Lemma pair_sum_sub {A} `{EqDecision A} (f : A -> A -> Z) L V : NoDup L -> NoDup V -> (forall x, x ∈ L -> x ∈ V) ->
  (forall x y, x ∉ L \/ y ∉ L -> f x y = 0) -> pair_sum f L = pair_sum f V.
Proof.
  intros HL HV Hs H0. assert (forall g : A -> Z, (forall y, y ∉ L -> g y = 0) -> zsumf g L = zsumf g V) as Hg.
  { intros g Hg. assert (Permutation L (filter (fun y => y ∈ L) V)) as HP.
    { apply NoDup_Permutation; [done|by apply NoDup_filter|]. intros y. rewrite elem_of_list_filter. split; [auto|tauto]. }
    rewrite (zsumf_perm _ _ _ HP), zsumf_filter. apply zsumf_ext. intros y _. destruct (decide (y ∈ L)); [done|]. by rewrite Hg. }
  unfold pair_sum. rewrite Hg.
  - apply zsumf_ext. intros x _. apply Hg. intros y Hy. rewrite (H0 x y) by auto. by destruct (decide (x = y)).
  - intros x Hx. rewrite (zsumf_ext _ (fun _ => 0)); [rewrite zsumf_const; lia|]. intros y _. rewrite (H0 x y) by auto. by destruct (decide (x = y)).
Qed.
Lemma reads_fun n a b v w : reads n a b v -> reads n a b w -> v = w.
Proof.
  intros (i & Hi & H1) (j & Hj & H2). rewrite (getitem_names n i a b Hi) in H1. rewrite (getitem_names n j a b Hj) in H2. congruence.
Qed.
Lemma foldl_max (l : list (list name * Z)) m : (foldl (fun m x => Z.max m (x.2)) m l = m \/ exists e, e ∈ l /\ e.2 = foldl (fun m x => Z.max m (x.2)) m l) /\
  m <= foldl (fun m x => Z.max m (x.2)) m l /\ forall e, e ∈ l -> e.2 <= foldl (fun m x => Z.max m (x.2)) m l.
Proof.
  revert m. induction l as [|e l IH]; intros m; simpl; [split; [auto|split; [lia|by intros e ?%elem_of_nil]]|].
  destruct (IH (Z.max m (e.2))) as (H1 & H2 & H3). split; [|split; [lia|]].
  - destruct H1 as [H1|(e' & He' & H1)]; [|right; exists e'; split; [by right|done]]. rewrite H1. destruct (Z.max_spec m (e.2)) as [[? ->]|[? ->]]; [|by left].
    right. exists e. split; [left|done].
  - intros e' [->|He']%elem_of_cons; [lia|by apply H3].
Qed.
Lemma max_weight_cases n : good n -> directed n = false ->
  (max_weight n = Err ValueError /\ forall a b, ~ linked n a b) \/ exists M, max_weight n = Ok M /\ max_link n M.
Proof.
  intros Hg Hd. destruct (edges_und_exact n Hg Hd) as (_ & H1 & H2 & _). unfold max_weight. destruct (edges n) as [|e es] eqn:E.
  - left. split; [done|]. intros a b Hl. destruct (H2 a b Hl) as (e & He%elem_of_nil & _). done.
  - right. eexists. split; [done|]. destruct (foldl_max es (e.2)) as (Hm & Hge & Hall). set (M := foldl _ _ _) in *.
    assert (forall e', e' ∈ e :: es -> e'.2 <= M) as Hall' by (intros e' [->|?]%elem_of_cons; [done|by apply Hall]).
    split.
    + assert (exists e', e' ∈ e :: es /\ e'.2 = M) as (e' & He' & <-).
      { destruct Hm as [->|(e' & ? & ?)]; [exists e; split; [left|done]|exists e'; split; [by right|done]]. }
      destruct (H1 e' He') as (a & b & Hl & (_ & _ & Hr)). eauto.
    + intros a b w Hl Hr. destruct (H2 a b Hl) as (e' & He' & [(_ & _ & Hr')|(_ & _ & Hr')]).
      * rewrite (reads_fun _ _ _ _ _ Hr Hr'). by apply Hall'.
      * destruct Hl as (La & Lb & _). assert (reads n a b (e'.2)) as Hr''.
        { apply reads_rd in Hr'; [|done..]. apply reads_rd; [done..|]. by rewrite rd_sym. }
        rewrite (reads_fun _ _ _ _ _ Hr Hr''). by apply Hall'.
Qed.
Lemma max_link_fun n M M' : max_link n M -> max_link n M' -> M = M'.
Proof. intros [(a & b & H1 & H2) H3] [(a' & b' & H1' & H2') H3']. pose proof (H3 _ _ _ H1' H2'). pose proof (H3' _ _ _ H1 H2). lia. Qed.
Section Und.
  Context (n : mlnet) (Hg : good n) (Hd : directed n = false) (a : nl).
  Let T := iter_total n a None.
  Lemma u_T b : b ∈ T <-> linked n a b.
  Proof.
    unfold T. destruct (iter_total_exact n a None Hg I) as [_ HE]. rewrite HE. split.
    - intros [[?|Hb] _]; [done|]. apply linked_lnk in Hb; [|done]. apply linked_lnk; [done|]. by rewrite (wfL_sym n (proj2 Hg) Hd).
    - intros Hb. split; [by left|done].
  Qed.
  Lemma u_NoDup : NoDup T.
  Proof. apply (iter_total_exact n a None Hg I). Qed.
  Lemma u_perm L : lists_exactly L (linked n a) -> Permutation L T.
  Proof. intros [HN HE]. apply NoDup_Permutation; [done|apply u_NoDup|]. intros b. by rewrite HE, u_T. Qed.
  Lemma u_deg : degree n a None = Z.of_nat (length T).
  Proof. unfold T, degree, iter_total. rewrite Hd. apply degree_out_iter. Qed.
  Lemma u_weight b c : b ∈ T -> c ∈ T -> weight n b c = rd n b c /\ weight n a b = rd n a b.
  Proof. intros (La & Hb & _)%u_T (_ & Hc & _)%u_T. rewrite !weight_rd by congruence. done. Qed.
  Lemma u_pair f L : lists_exactly L (linked n a) -> (forall x y, x ∈ T -> y ∈ T -> f x y = f y x) ->
    2 * zsumf (fun q => f (q.1) (q.2)) (pairs2 T) = pair_sum f L.
  Proof. intros HL Hf. rewrite (pair_sum_perm _ _ _ (u_perm L HL)). symmetry. apply pair_sum_pairs2; [apply u_NoDup|done]. Qed.
End Und.
(** A quotient of halves, divided once more. *)
Lemma half_ratio num den a b M : 2 * a = num -> 2 * b = den ->
  (den * M = 0 -> (let? x := zdiv a b in let? q := fdiv x (inject_Z M) in Ok (Some q)) = Err ZeroDivisionError) /\
  (den * M <> 0 -> exists q, (let? x := zdiv a b in let? q := fdiv x (inject_Z M) in Ok (Some q)) = Ok (Some q) /\ (q == inject_Z num / inject_Z (den * M))%Q).
Proof.
  intros <- <-. unfold zdiv, fdiv. split; intros H.
  - destruct (Qeq_bool (inject_Z b) 0) eqn:E; [done|]. cbn [rbind]. destruct (Qeq_bool (inject_Z M) 0) eqn:E'; [done|].
    assert (b <> 0) as Hb by (intros ->; done). assert (M <> 0) as HM by (intros ->; done). nia.
  - assert (b <> 0 /\ M <> 0) as [Hb HM] by nia.
    assert (Qeq_bool (inject_Z b) 0 = false) as -> by (apply not_true_iff_false; intros E%Qeq_bool_iff; unfold Qeq in E; simpl in E; lia). cbn [rbind].
    assert (Qeq_bool (inject_Z M) 0 = false) as -> by (apply not_true_iff_false; intros E%Qeq_bool_iff; unfold Qeq in E; simpl in E; lia). cbn [rbind].
    eexists. split; [done|]. rewrite !inject_Z_mult. field. repeat split; unfold Qeq; simpl; lia.
Qed.

(** ** C65, Zhang's coefficient *)
Lemma names_lists n x L : aspects n = 0%nat -> lists_exactly L (fun y => linked n [x] [y]) -> lists_exactly ((fun y => [y]) <$> L) (linked n [x]).
Proof.
  intros Ha [HN HE]. split; [apply NoDup_fmap; [by intros ?? [= ?]|done]|]. intros b. rewrite elem_of_list_fmap. split.
  - intros (y & -> & Hy). by apply HE.
  - intros Hb. assert (length b = 1%nat) as Hl by (destruct Hb as (_ & -> & _); by rewrite Ha). destruct b as [|y []]; try done. exists y. split; [done|]. by apply HE.
Qed.
Lemma hist0 noe fi h n : hist 0 noe false fi h n -> good n /\ aspects n = 0%nat /\ noEdge n = noe /\ directed n = false.
Proof. intros H. destruct (hist_inv _ _ _ _ _ _ H) as [_ _ Ha Hn Hd _]. split; [by eapply hist_good|done]. Qed.
Definition closing (noe : Z) (W : name -> name -> Z) (x j h : name) : Z := if decide (W j h = noe) then 0 else W x j * W x h * W j h.
Lemma zhang_sums noe fi h n x L W : hist 0 noe false fi h n -> lists_exactly L (fun y => linked n [x] [y]) -> (forall i j, reads n [i] [j] (W i j)) ->
  2 * zhang_nom n [x] = pair_sum (closing noe W x) L /\ 2 * zhang_den n [x] = pair_sum (fun j h => W x j * W x h) L /\
  degree n [x] None = Z.of_nat (length L).
Proof.
  intros (Hg & Ha & Hn & Hd)%hist0 HL%names_lists HW; [|done].
  assert (forall i j, W i j = rd n [i] [j]) as HW' by (intros i j; apply (reads_rd n [i] [j]); rewrite ?Ha; done).
  assert (forall i j, W i j = weight n [i] [j]) as HW2 by (intros i j; by rewrite weight_rd).
  assert (forall i j, W i j = W j i) as Hs by (intros i j; rewrite !HW'; by apply rd_sym).
  split_and!.
  - pose (f := fun b c : nl => let ij := weight n b c in if decide (ij = noEdge n) then 0 else weight n [x] b * weight n [x] c * ij).
    change (zhang_nom n [x]) with (zsumf (fun q => f (q.1) (q.2)) (pairs2 (iter_total n [x] None))). rewrite (u_pair n Hg Hd [x] f _ HL); unfold f.
    { rewrite pair_sum_fmap by (by intros ?? [= ?]). apply pair_sum_ext. intros j k _ _ _. unfold closing. cbv zeta. by rewrite !HW2, Hn. }
    intros b c Hb Hc. cbv zeta. destruct (u_weight n Hg Hd [x] b c Hb Hc) as [-> ->]. destruct (u_weight n Hg Hd [x] c b Hc Hb) as [-> ->].
      rewrite (rd_sym n b c) by done. destruct (decide _); lia.
  - pose (f := fun b c : nl => weight n [x] b * weight n [x] c).
    change (zhang_den n [x]) with (zsumf (fun q => f (q.1) (q.2)) (pairs2 (iter_total n [x] None))). rewrite (u_pair n Hg Hd [x] f _ HL); unfold f.
    { rewrite pair_sum_fmap by (by intros ?? [= ?]). apply pair_sum_ext. intros j k _ _ _. by rewrite !HW2. }
    intros b c _ _. lia.
  - rewrite (u_deg n Hd [x]), <- (Permutation_length (u_perm n Hg Hd [x] _ HL)), fmap_length. done.
Qed.
(** [L] lists the neighbours of [x], [W] gives all weights, [M] is the largest weight. *)
Theorem C65_zhang noe fi h n x L W : hist 0 noe false fi h n -> lists_exactly L (fun y => linked n [x] [y]) -> (forall i j, reads n [i] [j] (W i j)) ->
  ((forall a b, ~ linked n a b) -> cc_zhang n [x] = Err ValueError) /\
  (forall M, max_link n M ->
     let num := pair_sum (fun j k => if decide (W j k = noe) then 0 else W x j * W x k * W j k) L in
     let den := pair_sum (fun j k => W x j * W x k) L in
     ((length L < 2)%nat -> cc_zhang n [x] = Ok None) /\
     ((2 <= length L)%nat -> den * M = 0 -> cc_zhang n [x] = Err ZeroDivisionError) /\
     ((2 <= length L)%nat -> den * M <> 0 -> exists q, cc_zhang n [x] = Ok (Some q) /\ (q == inject_Z num / inject_Z (den * M))%Q)).
Proof.
  intros Hh HL HW. destruct (zhang_sums _ _ _ _ _ _ _ Hh HL HW) as (H1 & H2 & H3). apply hist0 in Hh as (Hg & Ha & Hn & Hd). unfold cc_zhang. rewrite H3. split.
  - intros Hno. destruct (max_weight_cases n Hg Hd) as [[-> _]|(M & _ & (a & b & Hl & _) & _)]; [done|]. by apply Hno in Hl.
  - intros M HM. cbv zeta. destruct (max_weight_cases n Hg Hd) as [[_ Hno]|(M' & -> & HM')]; [destruct HM as [(a & b & Hl & _) _]; by apply Hno in Hl|].
    rewrite (max_link_fun _ _ _ HM' HM). cbn [rbind]. split_and!; [intros Hlt; by rewrite decide_False by lia|..]; intros Hge; rewrite decide_True by lia; exact (proj1 (half_ratio _ _ _ _ M H1 H2)) || exact (proj2 (half_ratio _ _ _ _ M H1 H2)).
Qed.
Lemma pair_sum_pos {A} `{EqDecision A} (f : A -> A -> Z) L : NoDup L -> (2 <= length L)%nat -> (forall x y, x ∈ L -> y ∈ L -> 0 < f x y) -> 0 < pair_sum f L.
Proof.
  intros HN HL Hp. destruct L as [|x [|y L]]; simpl in HL; [lia|lia|]. apply NoDup_cons in HN as [Hx HN].
  assert (0 < f x y) as Hxy by (apply Hp; [left|right; left]). 
  assert (forall z S, z ∈ x :: y :: L -> (forall u, u ∈ S -> u ∈ x :: y :: L) -> 0 <= zsumf (fun h => if decide (z = h) then 0 else f z h) S) as Hn.
  { intros z S Hz HS. apply zsumf_nonneg. intros u Hu. destruct (decide (z = u)); [lia|]. assert (0 < f z u); [|lia]. apply Hp; [done|by apply HS]. }
  assert (f x y <= zsumf (fun h => if decide (x = h) then 0 else f x h) (x :: y :: L)) as H1.
  { rewrite !zsumf_cons. rewrite decide_True by done. rewrite decide_False by (intros ->; apply Hx; left). specialize (Hn x L ltac:(left) ltac:(by do 2 right)). lia. }
  pose proof (Hn y (x :: y :: L) ltac:(right; left) ltac:(done)) as H2.
  assert (0 <= zsumf (fun j => zsumf (fun h => if decide (j = h) then 0 else f j h) (x :: y :: L)) L) as H3.
  { apply zsumf_nonneg. intros j Hj. apply Hn; [by do 2 right|done]. }
  unfold pair_sum. pose (g := fun j => zsumf (fun h => if decide (j = h) then 0 else f j h) (x :: y :: L)).
  change (0 < zsumf g (x :: y :: L)). change (f x y <= g x) in H1. change (0 <= g y) in H2. change (0 <= zsumf g L) in H3. rewrite !zsumf_cons. lia.
Qed.
(** Positive weights: defined whenever there are two neighbours, and in [0,1]. *)
Theorem C65_zhang_bounds noe fi h n x L : hist 0 noe false fi h n -> positive n -> lists_exactly L (fun y => linked n [x] [y]) -> (2 <= length L)%nat ->
  exists q, cc_zhang n [x] = Ok (Some q) /\ (0 <= q <= 1)%Q.
Proof.
  intros Hh Hpos HL H2. set (W := fun i j => rd n [i] [j]). pose proof (hist0 _ _ _ _ Hh) as (Hg & Ha & Hn & Hd).
  assert (forall i j, reads n [i] [j] (W i j)) as HW by (intros i j; apply reads_rd; rewrite ?Ha; done).
  destruct (C65_zhang _ _ _ _ _ _ _ Hh HL HW) as [_ HZ].
  assert (forall i j, linked n [i] [j] -> 0 < W i j) as Hp by (intros i j Hl; by apply (Hpos [i] [j])).
  assert (exists M, max_link n M) as [M HM].
  { destruct (max_weight_cases n Hg Hd) as [[_ Hno]|(M & _ & HM)]; [|eauto]. destruct L as [|y L]; simpl in H2; [lia|]. exfalso. apply (Hno [x] [y]). apply HL. left. }
  assert (0 < M) as HM0 by (destruct HM as [(a & b & Hl & Hr) _]; by eapply Hpos).
  destruct (HZ M HM) as (_ & _ & Hq). set (den := pair_sum (fun j k => W x j * W x k) L) in *. set (num := pair_sum _ L) in Hq.
  assert (0 < den) as Hden.
  { apply pair_sum_pos; [apply HL|done|]. intros j k Hj%HL Hk%HL. apply Z.mul_pos_pos; by apply Hp. }
  destruct (Hq H2 ltac:(nia)) as (q & Hq1 & Hq2). exists q. split; [done|]. rewrite Hq2. apply Qdiv_unit; [nia|]. split.
  - unfold num. transitivity (pair_sum (fun _ _ => 0) L); [by rewrite pair_sum_zero|]. apply pair_sum_le. intros j k Hj%HL%Hp Hk%HL%Hp _. destruct (decide (W j k = noe)); [lia|].
    assert (0 < W j k) as Hjk by (apply Hp, linked_rd; [done|]; by rewrite Hn). apply Z.mul_nonneg_nonneg; [|lia]. apply Z.mul_nonneg_nonneg; lia.
  - unfold num, den. rewrite Z.mul_comm, <- pair_sum_mul. apply pair_sum_le. intros j k Hj%HL%Hp Hk%HL%Hp _. destruct (decide (W j k = noe)); [apply Z.mul_nonneg_nonneg; [lia|]; apply Z.mul_nonneg_nonneg; lia|].
    assert (W j k <= M) as Hjk. { apply (proj2 HM [j] [k]); [apply linked_rd; [done|]; by rewrite Hn|apply HW]. }
    rewrite (Z.mul_comm M). apply Z.mul_le_mono_nonneg_l; [|done]. apply Z.mul_nonneg_nonneg; lia.
Qed.
Lemma pair_sum_add_l {A} `{EqDecision A} (f : A -> Z) L : NoDup L -> pair_sum (fun j _ => f j) L = (Z.of_nat (length L) - 1) * zsumf f L.
Proof.
  intros HN. unfold pair_sum. rewrite <- zsumf_mul_l. apply zsumf_ext. intros j Hj. rewrite (zsumf_ext _ (fun h => ind (h <> j) * f j)).
  - rewrite (zsumf_skip (fun _ => f j)) by done. rewrite decide_True by done. rewrite zsumf_const. lia.
  - intros h _. unfold ind. destruct (decide (j = h)) as [->|Hne]; [rewrite decide_False by auto; lia|]. rewrite decide_True by congruence. lia.
Qed.
Lemma pair_sum_swap {A} `{EqDecision A} (f : A -> A -> Z) L : pair_sum f L = pair_sum (fun x y => f y x) L.
Proof.
  unfold pair_sum. rewrite zsumf_swap. apply zsumf_ext. intros x _. apply zsumf_ext. intros y _. destruct (decide (x = y)) as [->|Hne]; [by rewrite decide_True|]. by rewrite decide_False by congruence.
Qed.
Lemma pair_sum_add {A} `{EqDecision A} (f g : A -> A -> Z) L : pair_sum (fun x y => f x y + g x y) L = pair_sum f L + pair_sum g L.
Proof. unfold pair_sum. rewrite <- zsumf_add. apply zsumf_ext. intros x _. rewrite <- zsumf_add. apply zsumf_ext. intros y _. destruct (decide (x = y)); lia. Qed.
Lemma pair_sum_one {A} `{EqDecision A} (L : list A) : NoDup L -> pair_sum (fun _ _ => 1) L = Z.of_nat (length L) * (Z.of_nat (length L) - 1).
Proof. intros HN. rewrite (pair_sum_add_l (fun _ => 1)) by done. rewrite zsumf_const. lia. Qed.
(** [lcc] in the same form. *)
Lemma lcc_ratio n a L : good n -> directed n = false -> lists_exactly L (linked n a) -> (2 <= length L)%nat ->
  exists q, lcc n a = Ok (Some q) /\ (q == inject_Z (pair_sum (fun b c => zne (rd n b c) (noEdge n)) L) / inject_Z (Z.of_nat (length L) * (Z.of_nat (length L) - 1)))%Q.
Proof.
  intros Hg Hd HL H2. unfold lcc. rewrite (u_deg n Hd a), <- (Permutation_length (u_perm n Hg Hd a L HL)). rewrite decide_True by lia.
  assert (2 * (cc_num_den n a).1 = pair_sum (fun b c => zne (rd n b c) (noEdge n)) L) as H1.
  { unfold cc_num_den. cbn [fst]. pose (f := fun b c : nl => zne (weight n b c) (noEdge n)).
    change (2 * zsumf (fun q => f (q.1) (q.2)) (pairs2 (iter_total n a None)) = pair_sum (fun b c => zne (rd n b c) (noEdge n)) L).
    rewrite (u_pair n Hg Hd a f L HL); unfold f.
    - apply pair_sum_ext. intros b c Hb Hc _. apply (Permutation_in' eq_refl (u_perm n Hg Hd a L HL)) in Hb || rewrite (u_perm n Hg Hd a L HL) in Hb.
      rewrite (u_perm n Hg Hd a L HL) in Hc. by destruct (u_weight n Hg Hd a b c Hb Hc) as [-> _].
    - intros b c Hb Hc. destruct (u_weight n Hg Hd a b c Hb Hc) as [-> _]. destruct (u_weight n Hg Hd a c b Hc Hb) as [-> _]. by rewrite rd_sym. }
  set (k := Z.of_nat (length L)) in *.
  assert (2 * (cc_num_den n a).2 = k * (k - 1)) as Hden.
  { unfold cc_num_den. cbn [snd]. rewrite (u_deg n Hd a), <- (Permutation_length (u_perm n Hg Hd a L HL)). fold k. assert (exists t, k * (k - 1) = 2 * t) as [t ->]; [|rewrite Z.mul_comm, (Z.mul_comm 2 t), Z.div_mul; lia].
    destruct (Z.Even_or_Odd k) as [[m ->]|[m ->]]; [exists (m * (2 * m - 1))|exists ((2 * m + 1) * m)]; lia. }
  assert (2 <= k) as Hk by (unfold k; lia). assert (0 < (cc_num_den n a).2) as Hp by nia. rewrite zdiv_pos by done. cbn [rbind]. eexists. split; [done|].
  rewrite <- H1. apply Qdiv_eq; [done|nia|nia].
Qed.
(** All links of weight [c]: the unweighted coefficient. *)
Theorem C65_zhang_equal_weights noe fi h n x L c : hist 0 noe false fi h n -> c <> 0 -> (forall a b w, linked n a b -> reads n a b w -> w = c) ->
  lists_exactly L (fun y => linked n [x] [y]) -> (2 <= length L)%nat ->
  exists q r, cc_zhang n [x] = Ok (Some q) /\ lcc n [x] = Ok (Some r) /\ (q == r)%Q.
Proof.
  intros Hh Hc Hall HL H2. set (W := fun i j => rd n [i] [j]). pose proof (hist0 _ _ _ _ Hh) as (Hg & Ha & Hn & Hd).
  assert (forall i j, reads n [i] [j] (W i j)) as HW by (intros i j; apply reads_rd; rewrite ?Ha; done).
  destruct (C65_zhang _ _ _ _ _ _ _ Hh HL HW) as [_ HZ].
  assert (forall i j, linked n [i] [j] -> W i j = c) as Hp by (intros i j Hl; by apply (Hall [i] [j])).
  assert (max_link n c) as HM.
  { split; [|intros a b w Hl Hr; by rewrite (Hall _ _ _ Hl Hr)]. destruct L as [|y L]; simpl in H2; [lia|].
    assert (linked n [x] [y]) as Hl by (apply HL; left). exists [x], [y]. split; [done|]. rewrite <- (Hp x y Hl). apply HW. }
  destruct (HZ c HM) as (_ & _ & Hq). cbv zeta in Hq.
  pose proof (names_lists n x L Ha HL) as HL'. destruct (lcc_ratio n [x] _ Hg Hd HL' ltac:(by rewrite fmap_length)) as (r & Hr & Er). rewrite fmap_length in Er.
  rewrite (pair_sum_fmap (fun y => [y])) in Er by (by intros ?? [= ?]).
  set (S := pair_sum _ L) in Er. set (k := Z.of_nat (length L)) in *. assert (2 <= k) as Hk by (unfold k; lia).
  assert (pair_sum (fun j k => W x j * W x k) L = c * c * (k * (k - 1))) as Hden.
  { unfold k. rewrite <- (pair_sum_one L) by apply HL. rewrite <- pair_sum_mul. apply pair_sum_ext. intros j u Hj%HL Hu%HL _. rewrite !Hp by done. lia. }
  assert (pair_sum (fun j k => if decide (W j k = noe) then 0 else W x j * W x k * W j k) L = c * c * c * S) as Hnum.
  { unfold S. rewrite <- pair_sum_mul. apply pair_sum_ext. intros j u Hj%HL Hu%HL _. rewrite Hn. change (rd n [j] [u]) with (W j u). unfold zne.
    destruct (decide (W j u = noe)) as [_|Hne]; [lia|]. rewrite !Hp; [lia|apply linked_rd; [done|]; by rewrite Hn|done..]. }
  rewrite Hden, Hnum in Hq. destruct (Hq H2) as (q & Hq1 & Hq2); [repeat (apply Z.neq_mul_0; split); lia|].
  exists q, r. split_and!; [done|done|]. rewrite Hq2, Er. 
  rewrite !inject_Z_mult. field. assert (forall z, z <> 0 -> ~ (inject_Z z == 0)%Q) as Hz by (intros z Hz; unfold Qeq; simpl; lia).
  split_and!; apply Hz; lia.
Qed.
(** The formulas of the docstrings, over all nodes, for [noEdge] 0. *)
Lemma nodes_lists noe fi h n N : hist 0 noe false fi h n -> lists_exactly N (has_elem n 0) -> Permutation N (net_nodes n).
Proof.
  intros Hh [HN HE]. pose proof (hist0 _ _ _ _ Hh) as (Hg & Ha & Hn & Hd). pose proof (wfS_len n (proj1 Hg)) as Hl. rewrite Ha in Hl.
  assert (NoDup (net_nodes n)) as HN' by (unfold net_nodes; destruct (slices n) as [|s S] eqn:E; [done|]; pose proof (wfS_nodup n (proj1 Hg)) as Hf; rewrite E in Hf; by inversion Hf).
  apply NoDup_Permutation; [done|done|]. intros x. rewrite HE. unfold has_elem, get_layers, net_nodes. destruct (slices n) as [|s S]; [done|]. simpl. split; [by intros (? & [= ->] & ?)|eauto].
Qed.
Lemma linked_nodes noe fi h n i j : hist 0 noe false fi h n -> linked n [i] [j] -> j ∈ net_nodes n.
Proof.
  intros (Hg & Ha & Hn & Hd)%hist0 [v Hv]%linked_lnk; [|done]. destruct (wfL_present n (proj2 Hg) _ _ _ Hv) as [_ Hz].
  apply elem_of_iter_node_layers in Hz as [Hz _]; [|apply Hg]. unfold nl_in_slices in Hz. pose proof (wfS_len n (proj1 Hg)) as Hl. rewrite Ha in Hl.
  unfold net_nodes. destruct (slices n) as [|s [|]]; [done| |done]. by inversion Hz.
Qed.
Lemma zhang_sums_all fi h n x N W : hist 0 0 false fi h n -> lists_exactly N (has_elem n 0) -> (forall i j, reads n [i] [j] (W i j)) ->
  2 * zhang_nom n [x] = pair_sum (fun j k => W x j * W x k * W j k) N /\ 2 * zhang_den n [x] = pair_sum (fun j k => W x j * W x k) N.
Proof.
  intros Hh HN HW. pose proof (hist0 _ _ _ _ Hh) as (Hg & Ha & Hn & Hd). pose proof (nodes_lists _ _ _ _ _ Hh HN) as HP.
  assert (forall i j, W i j = rd n [i] [j]) as HW' by (intros i j; apply (reads_rd n [i] [j]); rewrite ?Ha; done).
  set (L := filter (fun y => W x y <> 0) (net_nodes n)).
  assert (forall y, y ∈ L <-> W x y <> 0) as HLe.
  { intros y. unfold L. rewrite elem_of_list_filter. split; [tauto|]. intros Hy. split; [done|]. apply (linked_nodes _ _ _ _ x _ Hh). apply linked_rd; [done|]. by rewrite Hn, <- HW'. }
  assert (NoDup L) as HLn by (apply NoDup_filter; rewrite <- HP; apply HN).
  assert (lists_exactly L (fun y => linked n [x] [y])) as HL by (split; [done|]; intros y; by rewrite HLe, linked_rd, Hn, HW').
  destruct (zhang_sums _ _ _ _ _ _ _ Hh HL HW) as (-> & -> & _).
  assert (forall y, y ∉ L -> W x y = 0) as H0 by (intros y Hy; destruct (decide (W x y = 0)) as [|Hz]; [done|]; by apply HLe in Hz).
  assert (forall y, y ∈ L -> y ∈ N) as Hs by (intros y [_ Hy]%elem_of_list_filter; by rewrite HP).
  split.
  - rewrite (pair_sum_ext (closing 0 W x) (fun j k => W x j * W x k * W j k)).
    + apply pair_sum_sub; [done|apply HN|done|]. intros j k [Hj|Hk]; rewrite (H0 _ ltac:(eassumption)); lia.
    + intros j k _ _ _. unfold closing. destruct (decide (W j k = 0)) as [->|]; lia.
  - apply pair_sum_sub; [done|apply HN|done|]. intros j k [Hj|Hk]; rewrite (H0 _ ltac:(eassumption)); lia.
Qed.
Theorem C65_zhang_documented fi h n x N L W M : hist 0 0 false fi h n -> lists_exactly N (has_elem n 0) -> lists_exactly L (fun y => linked n [x] [y]) -> (2 <= length L)%nat ->
  (forall i j, reads n [i] [j] (W i j)) -> (forall y, W y y = 0) -> max_link n M ->
  let num := zsumf (fun j => zsumf (fun k => W x j * W x k * W j k) N) N in
  let den := pair_sum (fun j k => W x j * W x k) N in
  (den = 0 -> cc_zhang n [x] = Err ZeroDivisionError) /\
  (den <> 0 -> exists q, cc_zhang n [x] = Ok (Some q) /\ (q == inject_Z num / inject_Z (M * den))%Q).
Proof.
  intros Hh HN HL H2 HW H0 HM. cbv zeta. pose proof (hist0 _ _ _ _ Hh) as (Hg & Ha & Hn & Hd). destruct (zhang_sums_all _ _ _ x _ _ Hh HN HW) as (H1 & H3). destruct (zhang_sums _ _ _ _ _ _ _ Hh HL HW) as (_ & _ & Hdeg).
  assert (M <> 0) as HM0.
  { destruct HM as [(a & b & (La & Lb & w & Hr & Hw) & Hr') _]. rewrite (reads_fun _ _ _ _ _ Hr' Hr). by rewrite Hn in Hw. }
  assert (zsumf (fun j => zsumf (fun k => W x j * W x k * W j k) N) N = pair_sum (fun j k => W x j * W x k * W j k) N) as ->.
  { unfold pair_sum. apply zsumf_ext. intros j _. apply zsumf_ext. intros k _. destruct (decide (j = k)) as [->|]; [rewrite H0; lia|done]. }
  unfold cc_zhang. destruct (max_weight_cases n Hg Hd) as [[_ Hno]|(M' & -> & HM')]; [destruct HM as [(a & b & Hl & _) _]; by apply Hno in Hl|].
  rewrite (max_link_fun _ _ _ HM' HM). cbn [rbind]. rewrite Hdeg, decide_True by lia. destruct (half_ratio _ _ _ _ M H1 H3) as [Hz Hq]. rewrite (Z.mul_comm M). split; intros E; [apply Hz; lia|apply Hq; nia].
Qed.
Theorem C65_gcc_zhang fi h n N W : hist 0 0 false fi h n -> lists_exactly N (has_elem n 0) -> (forall i j, reads n [i] [j] (W i j)) ->
  ((forall a b, ~ linked n a b) -> gcc_zhang n = Err ValueError) /\
  (forall M, max_link n M ->
     let num := zsumf (fun i => pair_sum (fun j k => W i j * W i k * W j k) N) N in
     let den := zsumf (fun i => pair_sum (fun j k => W i j * W i k) N) N in
     (den = 0 -> gcc_zhang n = Ok None) /\
     (den <> 0 -> exists q, gcc_zhang n = Ok (Some q) /\ (q == inject_Z num / inject_Z (M * den))%Q /\ (positive n -> (0 <= q <= 1)%Q))).
Proof.
  intros Hh HN HW. pose proof (hist0 _ _ _ _ Hh) as (Hg & Ha & Hn & Hd). pose proof (nodes_lists _ _ _ _ _ Hh HN) as HP. unfold gcc_zhang. split.
  - intros Hno. destruct (max_weight_cases n Hg Hd) as [[-> _]|(M & _ & (a & b & Hl & _) & _)]; [done|]. by apply Hno in Hl.
  - intros M HM. cbv zeta. destruct (max_weight_cases n Hg Hd) as [[_ Hno]|(M' & -> & HM')]; [destruct HM as [(a & b & Hl & _) _]; by apply Hno in Hl|].
    rewrite (max_link_fun _ _ _ HM' HM). cbn [rbind]. set (num := zsumf (fun i => pair_sum (fun j k => W i j * W i k * W j k) N) N). set (den := zsumf (fun i => pair_sum (fun j k => W i j * W i k) N) N).
    assert (M <> 0) as HM0.
    { destruct HM as [(a & b & (La & Lb & w & Hr & Hw) & Hr') _]. rewrite (reads_fun _ _ _ _ _ Hr' Hr). by rewrite Hn in Hw. }
    assert (forall x, ~ 2 <= degree n [x] None -> zhang_nom n [x] = 0 /\ zhang_den n [x] = 0) as Hsmall.
    { intros x Hx. rewrite (u_deg n Hd [x]) in Hx. unfold zhang_nom, zhang_den. by rewrite pairs2_short by lia. }
    assert (2 * zsumf (fun x => zhang_nom n [x]) (filter (fun x => 2 <= degree n [x] None) (net_nodes n)) = num) as H1.
    { unfold num. rewrite zsumf_filter, <- zsumf_mul_l, <- (zsumf_perm _ _ _ HP). apply zsumf_ext. intros x _. destruct (zhang_sums_all _ _ _ x _ _ Hh HN HW) as (<- & _).
      destruct (decide _) as [|Hx]; [done|]. by rewrite (proj1 (Hsmall x Hx)). }
    assert (2 * zsumf (fun x => zhang_den n [x]) (filter (fun x => 2 <= degree n [x] None) (net_nodes n)) = den) as H2.
    { unfold den. rewrite zsumf_filter, <- zsumf_mul_l, <- (zsumf_perm _ _ _ HP). apply zsumf_ext. intros x _. destruct (zhang_sums_all _ _ _ x _ _ Hh HN HW) as (_ & <-).
      destruct (decide _) as [|Hx]; [done|]. by rewrite (proj2 (Hsmall x Hx)). }
    split; intros E; [by rewrite decide_True by lia|]. rewrite decide_False by lia. destruct (half_ratio _ _ _ _ M H1 H2) as [_ Hq].
    destruct (Hq ltac:(nia)) as (q & Hq1 & Hq2). exists q. rewrite (Z.mul_comm M). split_and!; [done|done|]. intros Hpos.
    assert (forall i j, W i j = rd n [i] [j]) as HW' by (intros i j; apply (reads_rd n [i] [j]); rewrite ?Ha; done).
    assert (forall i j, 0 <= W i j <= M) as Hb.
    { assert (0 < M) by (destruct HM as [(a & b & Hl & Hr) _]; by eapply Hpos). intros i j. destruct (decide (W i j = 0)) as [->|Hz]; [lia|].
      assert (linked n [i] [j]) as Hl by (apply linked_rd; [done|]; by rewrite Hn, <- HW'). pose proof (Hpos _ _ _ Hl (HW i j)). pose proof (proj2 HM _ _ _ Hl (HW i j)). lia. }
    assert (0 < M) by (pose proof (Hb (NInt 0) (NInt 0)); lia).
    assert (0 <= den) as Hd0.
    { unfold den. apply zsumf_nonneg. intros i _. transitivity (pair_sum (fun _ _ => 0) N); [by rewrite pair_sum_zero|]. apply pair_sum_le. intros j k _ _ _. apply Z.mul_nonneg_nonneg; apply Hb. }
    rewrite Hq2. apply Qdiv_unit; [nia|]. split.
    + unfold num. apply zsumf_nonneg. intros i _. transitivity (pair_sum (fun _ _ => 0) N); [by rewrite pair_sum_zero|]. apply pair_sum_le. intros j k _ _ _. repeat apply Z.mul_nonneg_nonneg; apply Hb.
    + unfold num, den. rewrite <- zsumf_mul_r. apply zsumf_le. intros i _. rewrite Z.mul_comm, <- pair_sum_mul. apply pair_sum_le. intros j k _ _ _. rewrite (Z.mul_comm M).
      apply Z.mul_le_mono_nonneg_l; [|apply Hb]. apply Z.mul_nonneg_nonneg; apply Hb.
Qed.

(** ** C65, Barrat's coefficient, of a node-layer of any undirected network *)
Theorem C65_barrat asp noe fi h n a L W : hist asp noe false fi h n -> length a = S asp -> lists_exactly L (linked n a) ->
  (forall b c, length b = S asp -> length c = S asp -> reads n b c (W b c)) ->
  let k := Z.of_nat (length L) in let s := zsumf (W a) L in
  let num := pair_sum (fun b c => if decide (W b c = noe) then 0 else W a b + W a c) L in
  ((length L < 2)%nat -> cc_barrat n a = Ok None) /\
  ((2 <= length L)%nat -> s = 0 -> cc_barrat n a = Err ZeroDivisionError) /\
  ((2 <= length L)%nat -> s <> 0 -> exists q, cc_barrat n a = Ok (Some q) /\ (q == inject_Z num / inject_Z (2 * s * (k - 1)))%Q /\
     (positive n -> (0 <= q <= 1)%Q)) /\
  ((2 <= length L)%nat -> forall c, c <> 0 -> (forall b, b ∈ L -> W a b = c) -> exists q r, cc_barrat n a = Ok (Some q) /\ lcc n a = Ok (Some r) /\ (q == r)%Q).
Proof.
  intros Hh La HL HW. cbv zeta. destruct (hist_inv _ _ _ _ _ _ Hh) as [_ _ Ha Hn Hd _]. pose proof (hist_good _ _ _ _ _ _ Hh) as Hg.
  set (k := Z.of_nat (length L)). set (s := zsumf (W a) L). set (num := pair_sum _ L).
  assert (degree n a None = k) as Hdeg by (rewrite (u_deg n Hd a), <- (Permutation_length (u_perm n Hg Hd a L HL)); done).
  assert (forall b c, length b = S asp -> length c = S asp -> W b c = rd n b c) as HW' by (intros b c Hb Hc; apply (reads_rd n b c); [by rewrite Ha..|]; by apply HW).
  assert (forall b, b ∈ iter_total n a None -> length b = S asp) as Hlen by (intros b (_ & Hb & _)%u_T; [by rewrite Ha in Hb|done..]).
  assert (strength n a None = s) as Hstr.
  { unfold strength. rewrite Hd. unfold s. apply strength_out_exact; [done|done| |].
    - eapply lists_exactly_iff; [|exact HL]. intros b. simpl. tauto.
    - intros b Hb. apply HW; [done|]. apply HL in Hb as (_ & Hb & _). by rewrite Ha in Hb. }
  pose (f := fun b c : nl => if decide (weight n b c = noEdge n) then 0 else weight n a b + weight n a c).
  assert (forall b c, b ∈ iter_total n a None -> c ∈ iter_total n a None -> f b c = if decide (W b c = noe) then 0 else W a b + W a c) as Hf.
  { intros b c Hb Hc. unfold f. destruct (u_weight n Hg Hd a b c Hb Hc) as [-> ->]. destruct (u_weight n Hg Hd a c b Hc Hb) as [_ ->]. rewrite Hn, !HW'; auto. }
  assert (2 * zsumf (fun q => f (q.1) (q.2)) (pairs2 (iter_total n a None)) = num) as Hnum.
  { rewrite (u_pair n Hg Hd a f L HL).
    - apply pair_sum_ext. intros b c Hb Hc _. rewrite (u_perm n Hg Hd a L HL) in Hb, Hc. by apply Hf.
    - intros b c Hb Hc. rewrite !Hf by done. assert (W b c = W c b) as -> by (rewrite !HW' by auto; by apply rd_sym). destruct (decide _); lia. }
  assert (cc_barrat n a = if decide (2 <= k) then let? q := zdiv (zsumf (fun q => f (q.1) (q.2)) (pairs2 (iter_total n a None))) ((k - 1) * s) in Ok (Some q) else Ok None) as Heq.
  { unfold cc_barrat. by rewrite Hdeg, Hstr. }
  assert (forall z, z <> 0 -> ~ (inject_Z z == 0)%Q) as Hz by (intros z Hz; unfold Qeq; simpl; lia).
  assert (2 <= k -> s <> 0 -> exists q, cc_barrat n a = Ok (Some q) /\ (q == inject_Z num / inject_Z (2 * s * (k - 1)))%Q) as Hval.
  { intros Hk Hs. rewrite Heq, decide_True by done. rewrite zdiv_nz by nia. cbn [rbind]. eexists. split; [done|]. rewrite <- Hnum, !inject_Z_mult. field. split_and!; apply Hz; lia. }
  assert (pair_sum (fun b c => W a b + W a c) L = 2 * s * (k - 1)) as Hall.
  { rewrite pair_sum_add, (pair_sum_swap (fun _ c => W a c)), !(pair_sum_add_l (W a)) by apply HL. unfold s, k. lia. }
  split_and!.
  - intros Hlt. rewrite Heq, decide_False by (unfold k; lia). done.
  - intros Hge Hs. rewrite Heq, decide_True by (unfold k; lia). rewrite Hs, Z.mul_0_r. done.
  - intros Hge Hs. destruct (Hval ltac:(unfold k; lia) Hs) as (q & Hq & Eq). exists q. split_and!; [done|done|]. intros Hpos. rewrite Eq.
    assert (forall b, b ∈ L -> 0 < W a b) as Hp. { intros b Hb%HL. apply (Hpos a b); [done|]. apply HW; [done|]. destruct Hb as (_ & Hb & _). by rewrite Ha in Hb. }
    assert (0 <= s) as Hs0 by (apply zsumf_nonneg; intros b Hb%Hp; lia). apply Qdiv_unit; [unfold k; nia|]. rewrite <- Hall. split.
    + unfold num. transitivity (pair_sum (fun _ _ => 0) L); [by rewrite pair_sum_zero|]. apply pair_sum_le. intros b c Hb%Hp Hc%Hp _. destruct (decide (W b c = noe)); lia.
    + unfold num. apply pair_sum_le. intros b c Hb%Hp Hc%Hp _. destruct (decide (W b c = noe)); lia.
  - intros Hge c Hc Hall'. assert (s = c * k) as Es by (unfold s, k; rewrite (zsumf_ext _ (fun _ => c)) by done; apply zsumf_const).
    destruct (Hval ltac:(unfold k; lia) ltac:(unfold k in *; nia)) as (q & Hq & Eq). destruct (lcc_ratio n a L Hg Hd HL Hge) as (r & Hr & Er). exists q, r. split_and!; [done|done|]. rewrite Eq, Er.
    assert (num = 2 * c * pair_sum (fun b c => zne (rd n b c) (noEdge n)) L) as ->.
    { unfold num. rewrite <- pair_sum_mul. apply pair_sum_ext. intros b d Hb Hd' _. rewrite !Hall' by done. rewrite (u_perm n Hg Hd a L HL) in Hb, Hd'. rewrite HW' by auto. unfold zne. rewrite Hn. destruct (decide (rd n b d = noe)); lia. }
    fold k. rewrite Es. rewrite !inject_Z_mult. field. split_and!; apply Hz; unfold k; lia.
Qed.

(** Barrat's coefficient with cancelling weights, Zhang's without links. *)
Theorem C65_barrat_cancelling_raises : exists h n, hist 0 0 false true h n /\ cc_barrat n [A1] = Err ZeroDivisionError /\
  exists q, lcc n [A1] = Ok (Some q) /\ (q == 0)%Q.
Proof.
  exists [OpSet [A1; A2] 1; OpSet [A1; A3] (-1)], (run (new_net 0 0 false true) [OpSet [A1; A2] 1; OpSet [A1; A3] (-1)]).
  split; [apply run_hist0|]. split; [by vm_compute|]. eexists. split; [vm_compute; reflexivity|by vm_compute].
Qed.
(** Non-vacuity: [ex_lcc] has a triangle with weights 3, 1, 2 and a pending path. *)
Example C65_example : hist 0 0 false true [OpSet [A1; A2] 3; OpSet [A1; A3] 1; OpSet [A2; A3] 2; OpSet [A1; NInt 4] 1; OpSet [NInt 4; NInt 5] 1] ex_lcc /\
  (exists q, cc_zhang ex_lcc [A1] = Ok (Some q) /\ (q == 2 # 7)%Q) /\ (exists q, cc_barrat ex_lcc [A1] = Ok (Some q) /\ (q == 2 # 5)%Q) /\
  (exists q, gcc_zhang ex_lcc = Ok (Some q) /\ (q == 3 # 8)%Q) /\ cc_zhang ex_lcc [NInt 5] = Ok None /\ cc_zhang (new_net 0 0 false true) [A1] = Err ValueError.
Proof.
  split; [apply run_hist0|]. split_and!; try (eexists; split; [vm_compute; reflexivity|by vm_compute]); by vm_compute.
Qed.
Example C65_example_positive : positive ex_lcc /\ max_link ex_lcc 3.
Proof.
  assert (hist 0 0 false true [OpSet [A1; A2] 3; OpSet [A1; A3] 1; OpSet [A2; A3] 2; OpSet [A1; NInt 4] 1; OpSet [NInt 4; NInt 5] 1] ex_lcc) as Hh by apply run_hist0.
  pose proof (hist0 _ _ _ _ Hh) as (Hg & Ha & Hn & Hd). destruct (edges_und_exact _ Hg Hd) as (_ & _ & H2 & _). split.
  - intros a b w Hl Hr. destruct (H2 a b Hl) as (e & He & Het).
    assert (reads ex_lcc a b (e.2)) as Hr'.
    { destruct Hl as (La & Lb & _). destruct Het as [(_ & _ & ?)|(_ & _ & Hx)]; [done|]. apply reads_rd in Hx; [|done..]. apply reads_rd; [done..|]. by rewrite rd_sym. }
    rewrite (reads_fun _ _ _ _ _ Hr Hr'). assert (forallb (fun e => 0 <? e.2) (edges ex_lcc) = true) as Hf by by vm_compute.
    rewrite forallb_forall in Hf. apply elem_of_list_In in He. specialize (Hf _ He). lia.
  - destruct (max_weight_cases _ Hg Hd) as [[E _]|(M & E & HM)]; vm_compute in E; [done|]. by injection E as <-.
Qed.
Print Assumptions C65_zhang.
Print Assumptions C65_zhang_bounds.
Print Assumptions C65_zhang_equal_weights.
Print Assumptions C65_zhang_documented.
Print Assumptions C65_gcc_zhang.
Print Assumptions C65_barrat.
Print Assumptions C65_barrat_cancelling_raises.
