(** * Facts about the matrix versions of the alternating-walk counts *)
From Verif Require Export CcAdj CcAdjSpec CcSpec PropsNet PropsMpx CcFacts.
From Verif Require Import MpxHist MpxFacts ModelsFacts PropsModels IsomFacts PropsCc PropsAw PropsMpxEdges PropsTrans NetEdges TransFacts MpxIter MpxEdges.
From Verif Require Import PropsMpxPlain.
Open Scope Z_scope.

(** ** Matrices whose rows and columns are named by a list *)
Definition tab (N : list nl) (M : nl -> nl -> Z) : mat := (fun a => M a <$> N) <$> N.
Definition mid : nl -> nl -> Z := fun a b => if decide (a = b) then 1 else 0.
Lemma fmap_seq {B} (N : list nl) (g : nat -> B) (f : nl -> B) : (forall k c, N !! k = Some c -> g k = f c) -> g <$> seq 0 (length N) = f <$> N.
Proof.
  intros H. apply list_eq. intros k. rewrite !list_lookup_fmap. destruct (N !! k) as [c|] eqn:E.
  - rewrite lookup_seq_lt by (by eapply lookup_lt_Some). simpl. by rewrite (H k c E).
  - rewrite lookup_seq_ge by (by apply lookup_ge_None). done.
Qed.
Lemma zsumf_seq (N : list nl) (g : nat -> Z) (f : nl -> Z) : (forall k c, N !! k = Some c -> g k = f c) -> zsumf g (seq 0 (length N)) = zsumf f N.
Proof. intros H. unfold zsumf. by rewrite (fmap_seq N g f H). Qed.
Lemma tab_length N M : length (tab N M) = length N.
Proof. apply fmap_length. Qed.
Lemma ment_tab N M i j a b : N !! i = Some a -> N !! j = Some b -> ment (tab N M) i j = M a b.
Proof. intros Hi Hj. unfold ment, tab. rewrite (list_lookup_fmap (fun a => M a <$> N) N i), Hi. simpl. by rewrite list_lookup_fmap, Hj. Qed.
Lemma tab_ext N M M' : (forall a b, a ∈ N -> b ∈ N -> M a b = M' a b) -> tab N M = tab N M'.
Proof.
  intros H. unfold tab. apply list_fmap_ext. intros i a Ha. apply list_fmap_ext. intros j b Hb.
  apply H; by eapply elem_of_list_lookup_2.
Qed.
Lemma tab_mul N M M' : mat_mul (tab N M) (tab N M') = Ok (tab N (mmul N M M')).
Proof.
  unfold mat_mul. rewrite !tab_length, decide_True by done. f_equal. unfold tab at 2 3. rewrite <- list_fmap_compose. apply list_fmap_ext.
  intros i a Ha. unfold compose. apply fmap_seq. intros j b Hb. apply zsumf_seq. intros k c Hc.
  rewrite list_lookup_fmap, Hc. simpl. by rewrite (ment_tab N M' k j c b).
Qed.
Lemma zip_fmap {A B C D} (f : B -> C -> D) (g : A -> B) (h : A -> C) l : zip_with f (g <$> l) (h <$> l) = (fun x => f (g x) (h x)) <$> l.
Proof. induction l as [|x l IH]; [done|]. simpl. f_equal. exact IH. Qed.
Lemma tab_sub N M M' : mat_sub (tab N M) (tab N M') = tab N (fun a b => M a b - M' a b).
Proof. unfold mat_sub, tab. rewrite zip_fmap. apply list_fmap_ext. intros i a _. apply zip_fmap. Qed.
Lemma tab_add N M M' : mat_add (tab N M) (tab N M') = tab N (fun a b => M a b + M' a b).
Proof. unfold mat_add, tab. rewrite zip_fmap. apply list_fmap_ext. intros i a _. apply zip_fmap. Qed.
Lemma tab_eye N : NoDup N -> mat_eye (length N) = tab N mid.
Proof.
  intros HN. unfold mat_eye, tab. apply fmap_seq. intros i a Ha. apply fmap_seq. intros j b Hb. unfold mid.
  destruct (decide (i = j)) as [->|Hij]; [rewrite decide_True by congruence; done|]. rewrite decide_False; [done|].
  intros ->. by apply Hij, (NoDup_lookup N i j b).
Qed.
(** Products *)
Lemma mmul_ext N M M' X X' a b : (forall c, c ∈ N -> M a c = M' a c) -> (forall c, c ∈ N -> X c b = X' c b) -> mmul N M X a b = mmul N M' X' a b.
Proof. intros H1 H2. apply zsumf_ext. intros c Hc. by rewrite H1, H2. Qed.
Lemma mmul_assoc N A B C a b : mmul N (mmul N A B) C a b = mmul N A (mmul N B C) a b.
Proof.
  unfold mmul. transitivity (zsumf (fun c => zsumf (fun d => A a d * B d c * C c b) N) N).
  - apply zsumf_ext. intros c _. by rewrite zsumf_mul_r.
  - rewrite zsumf_swap. apply zsumf_ext. intros d _. rewrite <- zsumf_mul_l. apply zsumf_ext. intros c _. lia.
Qed.
Lemma mmul_id_r N M a b : NoDup N -> b ∈ N -> mmul N M mid a b = M a b.
Proof.
  intros HN Hb. unfold mmul, mid. rewrite (zsumf_ext _ (fun c => ind (c = b) * M a c)).
  - by rewrite (zsumf_point (fun c => M a c) N b).
  - intros c _. unfold ind. destruct (decide (c = b)); lia.
Qed.
Lemma mmul_id_l N M a b : NoDup N -> a ∈ N -> mmul N mid M a b = M a b.
Proof.
  intros HN Hb. unfold mmul, mid. rewrite (zsumf_ext _ (fun c => ind (c = a) * M c b)).
  - by rewrite (zsumf_point (fun c => M c b) N a).
  - intros c _. unfold ind. destruct (decide (c = a)), (decide (a = c)); try congruence; lia.
Qed.
Lemma mprod_app N Ms Ms' a b : NoDup N -> a ∈ N -> b ∈ N -> mprod N (Ms ++ Ms') a b = mmul N (mprod N Ms) (mprod N Ms') a b.
Proof.
  intros HN. revert a. induction Ms as [|M Ms IH]; intros a Ha Hb; cbn [app mprod].
  - symmetry. exact (mmul_id_l N (mprod N Ms') a b HN Ha).
  - rewrite mmul_assoc. apply mmul_ext; [done|]. intros c Hc. by apply IH.
Qed.
Lemma tab_chain N M Ms : NoDup N -> mat_chain (tab N M) (tab N <$> Ms) = Ok (tab N (mprod N (M :: Ms))).
Proof.
  intros HN. unfold mat_chain. revert M. induction Ms as [|M' Ms IH]; intros M; cbn [rfold fmap list_fmap].
  - f_equal. apply tab_ext. intros a b _ Hb. symmetry. exact (mmul_id_r N M a b HN Hb).
  - rewrite tab_mul. cbn [rbind]. rewrite IH. f_equal. apply tab_ext. intros a b _ _. cbn [mprod]. apply mmul_assoc.
Qed.
Definition msym (N : list nl) (M : nl -> nl -> Z) : Prop := forall a b, a ∈ N -> b ∈ N -> M a b = M b a.
Lemma mprod_rev N Ms a b : NoDup N -> Forall (msym N) Ms -> a ∈ N -> b ∈ N -> mprod N (reverse Ms) a b = mprod N Ms b a.
Proof.
  intros HN HF. revert a b. induction HF as [|M Ms HM _ IH]; intros a b Ha Hb.
  - simpl. destruct (decide (a = b)), (decide (b = a)); congruence.
  - rewrite reverse_cons, mprod_app by done. cbn [mprod]. unfold mmul at 1 3. apply zsumf_ext. intros c Hc. rewrite IH by done.
    change (mmul N M (fun a b => if decide (a = b) then 1 else 0) c b) with (mmul N M mid c b). rewrite mmul_id_r by done. rewrite (HM b c) by done. lia.
Qed.
(** Sums of matrices inside a product. *)
Lemma mprod_split N Ms1 M M1 M2 Ms2 a b : (forall c d, c ∈ N -> d ∈ N -> M c d = M1 c d + M2 c d) -> a ∈ N ->
  mprod N (Ms1 ++ M :: Ms2) a b = mprod N (Ms1 ++ M1 :: Ms2) a b + mprod N (Ms1 ++ M2 :: Ms2) a b.
Proof.
  intros HM. revert a. induction Ms1 as [|X Ms1 IH]; intros a Ha; cbn [app mprod]; unfold mmul; rewrite <- zsumf_add; apply zsumf_ext; intros c Hc.
  - rewrite HM by done. lia.
  - rewrite IH by done. lia.
Qed.
Lemma mprod_scale N Ms1 M k M1 Ms2 a b : (forall c d, c ∈ N -> d ∈ N -> M c d = k * M1 c d) -> a ∈ N ->
  mprod N (Ms1 ++ M :: Ms2) a b = k * mprod N (Ms1 ++ M1 :: Ms2) a b.
Proof.
  intros HM. revert a. induction Ms1 as [|X Ms1 IH]; intros a Ha; cbn [app mprod]; unfold mmul; rewrite <- zsumf_mul_l; apply zsumf_ext; intros c Hc.
  - rewrite HM by done. lia.
  - rewrite IH by done. lia.
Qed.
Lemma mprod_mid N Ms1 Ms2 a b : NoDup N -> a ∈ N -> mprod N (Ms1 ++ mid :: Ms2) a b = mprod N (Ms1 ++ Ms2) a b.
Proof.
  intros HN. revert a. induction Ms1 as [|X Ms1 IH]; intros a Ha; cbn [app mprod]; [by apply mmul_id_l|].
  apply mmul_ext; [done|]. intros c Hc. by apply IH.
Qed.
Lemma mprod_cong N Ms1 M M' Ms2 a b : (forall c d, c ∈ N -> d ∈ N -> M c d = M' c d) -> a ∈ N -> mprod N (Ms1 ++ M :: Ms2) a b = mprod N (Ms1 ++ M' :: Ms2) a b.
Proof. intros HM Ha. rewrite (mprod_scale N Ms1 M 1 M'); [lia| |done]. intros. rewrite HM by done. lia. Qed.
Lemma mprod_pair N Ms1 M M' Ms2 a b : a ∈ N -> mprod N (Ms1 ++ M :: M' :: Ms2) a b = mprod N (Ms1 ++ mmul N M M' :: Ms2) a b.
Proof.
  revert a. induction Ms1 as [|X Ms1 IH]; intros a Ha; cbn [app mprod]; [symmetry; apply mmul_assoc|].
  apply mmul_ext; [done|]. intros c Hc. by apply IH.
Qed.
(** Supports *)
Definition supp (N : list nl) (R : nl -> nl -> Prop) (M : nl -> nl -> Z) : Prop := forall a b, a ∈ N -> b ∈ N -> M a b <> 0 -> R a b.
Lemma zsumf_nz {A} (f : A -> Z) l : zsumf f l <> 0 -> exists x, x ∈ l /\ f x <> 0.
Proof.
  induction l as [|x l IH]; [done|]. rewrite zsumf_cons. intros H. destruct (decide (f x = 0)) as [E|E]; [|exists x; split; [left|done]].
  destruct IH as (y & Hy & Hf); [lia|]. exists y. split; [by right|done].
Qed.
Lemma supp_mul N (R1 R2 R : nl -> nl -> Prop) M X : supp N R1 M -> supp N R2 X ->
  (forall a b c, a ∈ N -> b ∈ N -> c ∈ N -> R1 a c -> R2 c b -> R a b) -> supp N R (mmul N M X).
Proof.
  intros H1 H2 HR a b Ha Hb Hne. apply zsumf_nz in Hne as (c & Hc & Hne). apply (HR a b c); [done..| |].
  - apply H1; [done..|]. intros E. apply Hne. rewrite E. lia.
  - apply H2; [done..|]. intros E. apply Hne. rewrite E. lia.
Qed.

(** ** The matrices of a network *)
Definition Wa (p : mpx) (a b : nl) : Z :=
  match a, b with [x; l], [y; l2] => if decide (l = l2) then wt p l x y else 0 | _, _ => 0 end.
Definition Wc (w : Z) (p : mpx) (a b : nl) : Z :=
  match a, b with [x; l], [y; l2] => if decide (x = y /\ l <> l2 /\ el p x l = 1 /\ el p x l2 = 1) then w else 0 | _, _ => 0 end.
Definition Wf (a b : nl) : Z :=
  match a, b with [x; l], [y; l2] => if decide (l = l2 /\ x <> y) then 1 else 0 | _, _ => 0 end.
Definition in_grid (p : mpx) (a : nl) : Prop := exists x l, a = [x; l] /\ x ∈ mnodes p /\ l ∈ lays p.
Definition noc (p : mpx) : mpx := MkMpx [CCat 0] (mdir p) (mnoe p) (mfic p) (mslices p) (mA p) (mn2l p).
Section Net.
  Context (w : Z) (fi : bool) (h : list call) (p : mpx) (Hi : pinv [CCat w] false 0 fi h p) (Hs : no_loops p).
  Lemma slices_eq : mslices p = [mnodes p; lays p].
  Proof.
    pose proof (pw_len p (pi_wf _ _ _ _ _ _ Hi)) as Hl. rewrite (pinv_asp _ _ _ _ _ _ Hi) in Hl. unfold mnodes, lays.
    destruct (mslices p) as [|s [|t [|]]]; done.
  Qed.
  Lemma grid_ex N : supra_nodes (mslices p) = Ok N -> NoDup N /\ forall a, a ∈ N <-> in_grid p a.
  Proof.
    intros HN. destruct (supra_nodes_exact _ _ (pw_nd p (pi_wf _ _ _ _ _ _ Hi)) HN) as [H1 H2]. split; [done|]. intros a. rewrite H2, slices_eq. split.
    - intros Hf. inversion Hf as [|x ? a' ? Hx Hf']; subst. inversion Hf' as [|l ? a'' ? Hl Hf'']; subst. inversion Hf''; subst. by exists x, l.
    - intros (x & l & -> & Hx & Hl). by repeat constructor.
  Qed.
  Lemma sort_ok : sortable p <-> exists N, supra_nodes (mslices p) = Ok N.
  Proof.
    rewrite supra_nodes_ok. unfold sortable, mixed. setoid_rewrite <- psl_mhas. split.
    - intros Hm s [k Hk]%elem_of_list_lookup (i & t & Hx & Ht). apply Hm. exists k, i, t. split; exists s; done.
    - intros Hm (k & i & t & (s & Hs' & Hx) & (s' & Hs'' & Ht)). simplify_eq. apply (Hm s); [by eapply elem_of_list_lookup_2|by exists i, t].
  Qed.
  Lemma read_grid x l y l2 : l ∈ lays p -> l2 ∈ lays p -> pgetitem p [x; y; l; l2] = Ok (Wa p [x; l] [y; l2] + Wc w p [x; l] [y; l2]).
  Proof.
    intros Hl Hl2. unfold Wa, Wc. destruct (decide (l = l2)) as [<-|Hne].
    - rewrite (read4 w fi h p Hi Hs). rewrite decide_False by (by intros (_ & ? & _)). f_equal. lia.
    - destruct (decide (x = y)) as [<-|Hxy].
      + rewrite (read_coup w fi h p Hi) by done. f_equal. rewrite Z.add_0_l. destruct (decide (el p x l = 1 /\ el p x l2 = 1)) as [[H1 H2]|Hno].
        * by rewrite decide_True.
        * rewrite decide_False; [done|]. intros (_ & _ & ?). by apply Hno.
      + rewrite decide_False by (by intros [? _]). rewrite (pgetitem_pair p _ [x; l] [y; l2]) by apply (names4 w fi h p Hi).
        rewrite pget_pair_none; [by rewrite (pi_noe _ _ _ _ _ _ Hi)|done|]. intros [|[|d]] Hd.
        * apply differ_at_0 in Hd as [_ Hd]. by injection Hd.
        * by apply differ_at_S in Hd as [Hd _].
        * apply differ_at_S in Hd as [Hd _]. done.
  Qed.
  Lemma supra_full N : supra_nodes (mslices p) = Ok N -> msupra p true = Ok (tab N (fun a b => Wa p a b + Wc w p a b), N).
  Proof.
    intros HN. destruct (grid_ex N HN) as [_ Hin]. unfold msupra, supra. rewrite (pinv_asp _ _ _ _ _ _ Hi). cbn [length]. rewrite decide_True by lia. rewrite HN. cbn [rbind].
    rewrite (rmapM_ok _ (fun a => (fun b => Wa p a b + Wc w p a b) <$> N)); [done|]. intros a (x & l & -> & Hx & Hl)%Hin.
    apply rmapM_ok. intros b (y & l2 & -> & Hy & Hl2)%Hin. cbn [orb interleave]. by apply read_grid.
  Qed.
  Lemma supra_intra N : supra_nodes (mslices p) = Ok N -> msupra p false = Ok (tab N (Wa p), N).
  Proof.
    intros HN. destruct (grid_ex N HN) as [_ Hin]. unfold msupra, supra. rewrite (pinv_asp _ _ _ _ _ _ Hi). cbn [length]. rewrite decide_True by lia. rewrite HN. cbn [rbind].
    rewrite (rmapM_ok _ (fun a => Wa p a <$> N)); [done|]. intros a (x & l & -> & Hx & Hl)%Hin.
    apply rmapM_ok. intros b (y & l2 & -> & Hy & Hl2)%Hin. cbn [orb tail]. unfold Wa. destruct (decide (l = l2)) as [<-|Hne].
    - rewrite bool_decide_eq_true_2 by done. apply (read4 w fi h p Hi Hs).
    - rewrite bool_decide_eq_false_2 by congruence. done.
  Qed.
  Lemma noc_inv : pinv [CCat 0] false 0 fi h (noc p).
  Proof. pose proof (pi_coup _ _ _ _ _ _ Hi) as Hc. destruct p as [c d n f s A n2]. simpl in Hc. subst c. destruct Hi as [H1 H2 H3 H4 H5 H6 H7 H8 H9]. constructor; simpl; try done. destruct H1; constructor; done. Qed.
End Net.

(** ** The full network *)
Definition two (s : list name) : Prop := exists x y, x ∈ s /\ y ∈ s /\ x <> y.
Lemma full_net_spec nodes layers : exists fn h, full_net nodes layers = Ok fn /\ mhist [CCat 1] false 0 true h fn /\
  (forall x, mhas fn 0 x <-> x ∈ nodes /\ two nodes /\ layers <> []) /\ (forall l, mhas fn 1 l <-> l ∈ layers /\ two nodes) /\
  (forall l, layer_links fn l (fun x y => l ∈ layers /\ x ∈ nodes /\ y ∈ nodes /\ x <> y)).
Proof.
  unfold full_net. set (os := layers ≫= _).
  assert (Hos : forall o, o ∈ os <-> exists l x y, l ∈ layers /\ x ∈ nodes /\ y ∈ nodes /\ x <> y /\ o = MSet [x; y; l; l] 1).
  { intros g. unfold os. rewrite elem_of_list_bind. split.
    - intros (l & Hg & Hl). apply elem_of_list_bind in Hg as (x & Hg & Hx). apply elem_of_list_bind in Hg as (y & Hg & Hy).
      destruct (decide _); [|by apply elem_of_nil in Hg]. apply elem_of_list_singleton in Hg. eauto 10.
    - intros (l & x & y & Hl & Hx & Hy & Hne & ->). exists l. split; [|done]. apply elem_of_list_bind. exists x. split; [|done].
      apply elem_of_list_bind. exists y. split; [|done]. rewrite decide_True by done. by left. }
  destruct (mbuild_safe (CCat 1) false 0 true os [] (new_mpx [CCat 1] false 0 true)) as (p & Hp & Hh); [constructor| |].
  { apply Forall_forall. intros o (l & x & y & _ & _ & _ & Hne & ->)%Hos. done. }
  simpl in Hh.
  assert (Hin : forall e, e ∈ okc <$> os <-> exists l x y, l ∈ layers /\ x ∈ nodes /\ y ∈ nodes /\ x <> y /\ e = okc (MSet [x; y; l; l] 1)).
  { intros e. rewrite elem_of_list_fmap. split.
    - intros (o & -> & (l & x & y & ? & ? & ? & ? & ->)%Hos). eauto 10.
    - intros (l & x & y & ? & ? & ? & ? & ->). eexists. split; [done|]. apply Hos. eauto 10. }
  assert (Hm : forall l x y j z, mmentions 1 true (okc (MSet [x; y; l; l] 1)) j z <-> (j = 0%nat /\ (z = x \/ z = y)) \/ (j = 1%nat /\ z = l)).
  { intros l x y j z. unfold mmentions. simpl. split.
    - intros (a & b & w & [_ [-> ->]%names_link2] & Hz). destruct j as [|[|j]]; simpl in Hz; [left|right|by destruct Hz];
        destruct Hz as [[= ->]|[= ->]]; auto.
    - intros H. exists [x; l], [y; l], 1%Z. split; [split; [done|]; by apply names_link2|]. destruct H as [[-> [-> | ->]]|[-> ->]]; simpl; auto. }
  exists p, (okc <$> os). split; [done|]. split; [done|]. split; [|split].
  - intros z. rewrite (C51_nodes_layers_exact _ _ _ _ _ _ Hh) by done. setoid_rewrite Hin. split.
    + intros (e & (l & x & y & Hl & Hx & Hy & Hne & ->) & Hz). apply Hm in Hz as [[_ Hz]|[? _]]; [|done].
      assert (layers <> []) by by (intros ->; apply elem_of_nil in Hl). assert (two nodes) by (by exists x, y). by destruct Hz as [-> | ->].
    + intros (Hx & (u & v & Hu & Hv & Huv) & Hl). destruct layers as [|l ls]; [done|].
      assert (exists y, y ∈ nodes /\ z <> y) as (y & Hy & Hne). { destruct (decide (z = u)) as [->|]; eauto. }
      exists (okc (MSet [z; y; l; l] 1)). split; [exists l, z, y; split; [left|done]|]. apply Hm. auto.
  - intros l. rewrite (C51_nodes_layers_exact _ _ _ _ _ _ Hh) by done. setoid_rewrite Hin. split.
    + intros (e & (l' & x & y & Hl & Hx & Hy & Hne & ->) & Hz). apply Hm in Hz as [[? _]|[_ ->]]; [done|]. split; [done|]. by exists x, y.
    + intros [Hl (u & v & Hu & Hv & Huv)]. exists (okc (MSet [u; v; l; l] 1)). split; [eauto 10|apply Hm; auto].
  - intros l.
    assert (Hw : forall l' x y l i j w, mwrites 1 (okc (MSet [x; y; l'; l'] 1)) (LBare l) i j w <-> w = 1%Z /\ i = x /\ j = y /\ l = l').
    { intros l' x y l0 i j w. unfold mwrites. simpl. split.
      - intros (_ & <- & Hl). apply names_link2 in Hl as [E1 E2]. injection E1 as -> ->. by injection E2 as ->.
      - intros (-> & -> & -> & ->). split; [done|]. split; [done|]. by apply names_link2. }
    eapply layer_links_ext; [eapply (mones _ _ _ _ Hh)|].
    + intros e l0 i j w (l' & x & y & _ & _ & _ & _ & ->)%Hin. by intros [-> _]%Hw.
    + intros l0 x w (l' & x' & y & _ & _ & _ & _ & E)%Hin. done.
    + intros x y Hne. split.
      * intros (e & (l' & x' & y' & Hl & Hx & Hy & Hne' & ->)%Hin & Ha). destruct Ha as [Ha|[_ Ha]]; apply Hw in Ha as (_ & -> & -> & ->); done.
      * intros (Hl & Hx & Hy & _). exists (okc (MSet [x; y; l; l] 1)). split; [apply Hin; eauto 10|]. left. by apply Hw.
Qed.
Lemma supra_nodes_same sl sl' N N' : Forall NoDup sl -> Forall NoDup sl' -> supra_nodes sl = Ok N -> supra_nodes sl' = Ok N' ->
  (forall a : nl, Forall2 (∈) a sl <-> Forall2 (∈) a sl') -> N = N'.
Proof.
  intros H1 H2 E1 E2 Hs. destruct (supra_nodes_exact _ _ H1 E1) as [D1 I1]. destruct (supra_nodes_exact _ _ H2 E2) as [D2 I2].
  assert (N ≡ₚ N') as HP by (apply NoDup_Permutation; [done..|]; intros a; by rewrite I1, I2).
  unfold supra_nodes in E1, E2. destruct (rmapM py_sorted (rev sl)) as [ss|]; [|done]. destruct (rmapM py_sorted (rev sl')) as [ss'|]; [|done].
  cbn [rbind] in E1, E2. injection E1 as <-. injection E2 as <-. f_equal. unfold sort_tuples in *. apply merge_sort_tuples_perm.
  rewrite !merge_sort_Permutation in HP. apply (fmap_Permutation (@rev name)) in HP. rewrite <- !list_fmap_compose in HP.
  rewrite !(list_fmap_ext (@rev name ∘ (fun x => rev x)) id), !list_fmap_id in HP by (intros ? ? _; unfold compose; apply rev_involutive). done.
Qed.
Lemma mhas_0 w fi h p x : pinv [CCat w] false 0 fi h p -> mhas p 0 x <-> x ∈ mnodes p.
Proof.
  intros Hi. rewrite <- psl_mhas. unfold psl. rewrite (slices_eq w fi h p Hi). simpl. split; [by intros (s & [= <-] & ?)|eauto].
Qed.
Lemma mhas_1 w fi h p x : pinv [CCat w] false 0 fi h p -> mhas p 1 x <-> x ∈ lays p.
Proof.
  intros Hi. rewrite <- psl_mhas. unfold psl. rewrite (slices_eq w fi h p Hi). simpl. split; [by intros (s & [= <-] & ?)|eauto].
Qed.
Section Full.
  Context (w : Z) (fi : bool) (h : list call) (p : mpx) (Hi : pinv [CCat w] false 0 fi h p).
  Lemma full_few : ~ two (mnodes p) -> full_matrix p = Ok [].
  Proof.
    intros H2. unfold full_matrix, pslices. rewrite (slices_eq w fi h p Hi). cbn [lookup list_lookup rbind].
    destruct (full_net_spec (mnodes p) (lays p)) as (fn & hf & -> & Hf & F0 & F1 & _). cbn [rbind].
    pose proof (mhist_inv _ _ _ _ _ _ Hf) as Hfi. assert (mnodes fn = [] /\ lays fn = []) as [E0 E1].
    { assert (forall s : list name, (forall x, x ∉ s) -> s = []) as Hnil by (intros [|y s] Hs; [done|]; exfalso; apply (Hs y); left).
      split; apply Hnil; intros x Hx.
      - apply (mhas_0 _ _ _ _ _ Hfi), F0 in Hx as (_ & ? & _). done.
      - apply (mhas_1 _ _ _ _ _ Hfi), F1 in Hx as (_ & ?). done. }
    unfold msupra, supra. rewrite (pinv_asp _ _ _ _ _ _ Hfi). cbn [length]. rewrite decide_True by lia.
    rewrite (slices_eq _ _ _ _ Hfi), E0, E1. done.
  Qed.
  Lemma full_many N : two (mnodes p) -> supra_nodes (mslices p) = Ok N -> full_matrix p = Ok (tab N Wf).
  Proof.
    intros H2 HN. unfold full_matrix, pslices. rewrite (slices_eq w fi h p Hi). cbn [lookup list_lookup rbind].
    destruct (full_net_spec (mnodes p) (lays p)) as (fn & hf & -> & Hf & F0 & F1 & FL). cbn [rbind].
    pose proof (mhist_inv _ _ _ _ _ _ Hf) as Hfi.
    assert (G0 : forall x, x ∈ mnodes fn -> x ∈ mnodes p) by (intros x Hx%(mhas_0 _ _ _ _ _ Hfi); by apply F0).
    assert (G1 : forall l, l ∈ lays fn <-> l ∈ lays p) by (intros l; rewrite <- (mhas_1 _ _ _ _ _ Hfi), F1; tauto).
    assert (G2 : forall x l, l ∈ lays p -> x ∈ mnodes p -> x ∈ mnodes fn).
    { intros x l Hl Hx. apply (mhas_0 _ _ _ _ _ Hfi), F0. split; [done|]. split; [done|]. intros E. rewrite E in Hl. by apply elem_of_nil in Hl. }
    assert (Hsl : no_loops fn).
    { intros l x v Hv. pose proof (get_wt _ _ _ _ _ Hv) as ->. destruct (decide (wt fn l x x = 0)) as [|Hz]; [done|].
      destruct (wt_out _ _ _ _ _ _ _ Hf Hz) as (Hl & Hx & _). destruct (FL l) as [_ FL2].
      assert (mexists fn [x; l]) as He. { apply (el_1 _ _ _ _ Hfi), (fi_el _ _ _ _ Hfi); [apply Hfi|done..]. }
      apply FL2 in He. rewrite He in Hv. congruence. }
    assert (exists N', supra_nodes (mslices fn) = Ok N') as [N' HN'].
    { apply supra_nodes_ok. assert (forall s, s ∈ mslices p -> ~ mixed s) as Hm by (apply supra_nodes_ok; eauto).
      rewrite (slices_eq _ _ _ _ Hfi). rewrite (slices_eq _ _ _ _ Hi) in Hm. intros s Hs (i & t & H1 & H3).
      apply elem_of_cons in Hs as [->|Hs].
      - apply (Hm (mnodes p)); [left|]. exists i, t. auto.
      - apply elem_of_list_singleton in Hs as ->. apply (Hm (lays p)); [right; left|]. exists i, t. split; by apply G1. }
    rewrite (supra_intra _ _ _ _ Hfi Hsl N' HN'). cbn [rbind fst]. f_equal.
    assert (N' = N) as ->.
    { eapply supra_nodes_same; [apply (pw_nd fn (pi_wf _ _ _ _ _ _ Hfi))|apply (pw_nd p (pi_wf _ _ _ _ _ _ Hi))|exact HN'|exact HN|].
      intros a. rewrite (slices_eq _ _ _ _ Hfi), (slices_eq _ _ _ _ Hi). split; intros Ha; inversion Ha as [|x ? a' ? Hx Ha']; subst; inversion Ha' as [|l ? ? ? Hl Ha'']; subst; inversion Ha''; subst;
        repeat constructor; try (by apply G1); [by apply G0|]. by eapply G2. }
    apply tab_ext. intros a b Ha Hb. destruct (grid_ex w fi h p Hi N HN) as [_ Hg]. apply Hg in Ha as (x & l & -> & Hx & Hl), Hb as (y & l2 & -> & Hy & Hl2).
    unfold Wa, Wf. destruct (decide (l = l2)) as [<-|Hne]; [|by rewrite decide_False by (intros [? _]; done)].
    destruct (decide (x = y)) as [->|Hxy].
    - rewrite decide_False by (by intros [_ ?]). assert (mexists fn [y; l]) as He.
      { apply (el_1 _ _ _ _ Hfi), (fi_el _ _ _ _ Hfi); [apply Hfi|by eapply G2|by apply G1]. }
      destruct (FL l) as [_ FL2]. apply FL2, get_wt in He. done.
    - rewrite decide_True by done. destruct (FL l) as [FL1 _]. destruct (FL1 x y Hxy) as [FL1' _]. specialize (FL1' ltac:(done)).
      rewrite mreads_pair in FL1' by (rewrite (pinv_asp _ _ _ _ _ _ Hfi); done). rewrite (read_intra _ _ _ _ Hfi Hsl) in FL1'. congruence.
  Qed.
End Full.

(** ** Walks over the grid and over the existing node-layers *)
Inductive letter : Type := LA | LC | LF.
Definition lval {M : Type} (A C F : M) (x : letter) : M := match x with LA => A | LC => C | LF => F end.
Fixpoint okw (u : list letter) : Prop :=
  match u with
  | [] => True
  | LF :: u => match u with [] => False | LF :: _ => False | _ :: _ => okw u end
  | _ :: u => okw u
  end.
Section Walk.
  Context (w : Z) (fi : bool) (h : list call) (p : mpx) (Hi : pinv [CCat w] false 0 fi h p) (Hs : no_loops p).
  Context (N : list nl) (HN : supra_nodes (mslices p) = Ok N).
  Local Notation wa := (Wa p). Local Notation wc := (Wc w p).
  Lemma N_nodup : NoDup N. Proof using Hi HN. apply (grid_ex w fi h p Hi N HN). Qed.
  Lemma N_grid a : a ∈ N <-> in_grid p a. Proof using Hi HN. apply (grid_ex w fi h p Hi N HN). Qed.
  Lemma ex_grid a : mexists p a -> a ∈ N.
  Proof using Hi HN.
    intros Ha. destruct (mexists_psl p _ (pi_wf _ _ _ _ _ _ Hi) Ha) as (Hl & _). rewrite (pinv_asp _ _ _ _ _ _ Hi) in Hl.
    destruct a as [|x [|l []]]; try done. apply N_grid. exists x, l. split; [done|]. by apply (el_in w fi h p Hi), (el_1 w fi h p Hi).
  Qed.
  Lemma wa_ex a b : wa a b <> 0 -> mexists p a /\ mexists p b.
  Proof using Hi.
    unfold Wa. destruct a as [|x [|l []]]; try done. destruct b as [|y [|l2 []]]; try done. destruct (decide (l = l2)) as [<-|]; [|done].
    intros H%bl_1%(bl_el w fi h p Hi). by rewrite <- !(el_1 w fi h p Hi).
  Qed.
  Lemma wc_ex a b : wc a b <> 0 -> mexists p a /\ mexists p b.
  Proof using Hi.
    unfold Wc. destruct a as [|x [|l []]]; try done. destruct b as [|y [|l2 []]]; try done. destruct (decide _) as [(<- & _ & H1 & H2)|]; [|done].
    intros _. by rewrite <- !(el_1 w fi h p Hi).
  Qed.
  Lemma wa_sym : msym N wa.
  Proof using Hi HN.
    intros a b (x & l & -> & _ & _)%N_grid (y & l2 & -> & _ & _)%N_grid. unfold Wa. destruct (decide (l = l2)) as [<-|Hne]; [|by rewrite decide_False].
    rewrite decide_True by done. by apply (wt_sym w fi h p Hi).
  Qed.
  Lemma wc_sym : msym N wc.
  Proof using Hi HN.
    intros a b (x & l & -> & _ & _)%N_grid (y & l2 & -> & _ & _)%N_grid. unfold Wc. destruct (decide _) as [(<- & ? & ? & ?)|Hno].
    - by rewrite decide_True.
    - rewrite decide_False; [done|]. intros (-> & ? & ? & ?). by apply Hno.
  Qed.
  (** Layers *)
  Definition same (a b : nl) : Prop := tail a = tail b.
  Definition diff (a b : nl) : Prop := tail a <> tail b.
  Lemma wa_same : supp N same wa.
  Proof using Hi HN.
    intros a b (x & l & -> & _ & _)%N_grid (y & l2 & -> & _ & _)%N_grid. unfold Wa, same. destruct (decide (l = l2)) as [<-|Hne]; done.
  Qed.
  Lemma wf_same : supp N same Wf.
  Proof using Hi HN.
    intros a b (x & l & -> & _ & _)%N_grid (y & l2 & -> & _ & _)%N_grid. unfold Wf, same. destruct (decide _) as [[<- _]|Hne]; done.
  Qed.
  Lemma wc_diff : supp N diff wc.
  Proof using Hi HN.
    intros a b (x & l & -> & _ & _)%N_grid (y & l2 & -> & _ & _)%N_grid. unfold Wc, diff. destruct (decide _) as [(_ & ? & _)|Hne]; simpl; congruence.
  Qed.
  Lemma supp_id : supp N same (mprod N []).
  Proof. intros a b _ _. simpl. destruct (decide (a = b)) as [->|]; done. Qed.
  Lemma supp_ss M Ms : supp N same M -> supp N same (mprod N Ms) -> supp N same (mprod N (M :: Ms)).
  Proof. intros H1 H2. eapply supp_mul; [exact H1|exact H2|]. unfold same. congruence. Qed.
  Lemma supp_sd M Ms : supp N same M -> supp N diff (mprod N Ms) -> supp N diff (mprod N (M :: Ms)).
  Proof. intros H1 H2. eapply supp_mul; [exact H1|exact H2|]. unfold same, diff. congruence. Qed.
  Lemma supp_ds M Ms : supp N diff M -> supp N same (mprod N Ms) -> supp N diff (mprod N (M :: Ms)).
  Proof. intros H1 H2. eapply supp_mul; [exact H1|exact H2|]. unfold same, diff. congruence. Qed.
  Lemma supp_dd M Ms : length (lays p) = 2%nat -> supp N diff M -> supp N diff (mprod N Ms) -> supp N same (mprod N (M :: Ms)).
  Proof using Hi HN.
    intros H2 H1 H3. eapply supp_mul; [exact H1|exact H3|]. intros a b c (x & l & -> & _ & Hl)%N_grid (y & l2 & -> & _ & Hl2)%N_grid (z & l3 & -> & _ & Hl3)%N_grid.
    unfold same, diff. simpl. destruct (lays p) as [|u [|v []]]; try done. rewrite !elem_of_cons in Hl, Hl2, Hl3.
    assert (forall z, z ∉ @nil name) as Hn by (intros ?; apply not_elem_of_nil). naive_solver congruence.
  Qed.
  Lemma diff_zero M a : a ∈ N -> supp N diff M -> M a a = 0.
  Proof. intros Ha H. destruct (decide (M a a = 0)) as [|Hne]; [done|]. by destruct (H a a Ha Ha Hne). Qed.

  Context (V : list nl) (HV : lists_exactly V (mexists p)) (A C F : nl -> nl -> Z)
    (HA : weighs p (stepA p) A) (HC : weighs p (stepC p) C) (HF : indicates (stepF p) F).
  Lemma reads_grid a b v : a ∈ N -> b ∈ N -> mreads p a b v <-> v = wa a b + wc a b.
  Proof using Hi HN Hs.
    intros (x & l & -> & _ & Hl)%N_grid (y & l2 & -> & _ & Hl2)%N_grid. rewrite mreads_pair by (rewrite (pinv_asp _ _ _ _ _ _ Hi); done).
    rewrite <- (pgetitem_pair p [x; y; l; l2]) by apply (names4 w fi h p Hi). rewrite (read_grid w fi h p Hi Hs) by done. split; congruence.
  Qed.
  Lemma linked_grid a b : a ∈ N -> b ∈ N -> mlinked p a b <-> wa a b + wc a b <> 0.
  Proof using Hi HN Hs.
    intros Ha Hb. unfold mlinked. rewrite (pi_noe _ _ _ _ _ _ Hi). split.
    - intros (v & Hv%reads_grid & Hne); [congruence|done..].
    - intros Hne. exists (wa a b + wc a b). split; [by apply reads_grid|done].
  Qed.
  Lemma A_W a b : a ∈ N -> b ∈ N -> A a b = wa a b.
  Proof using Hi HN Hs HA.
    intros Ha Hb. destruct (HA a b) as [[[_ Ht] Hr]|[Hn Hz]].
    - apply reads_grid in Hr; [|done..]. destruct (decide (wc a b = 0)) as [|E]; [lia|]. by apply (wc_diff a b Ha Hb) in E.
    - rewrite Hz. destruct (decide (wa a b = 0)) as [|E]; [done|]. exfalso. apply Hn. split; [|by apply wa_same]. apply linked_grid; [done..|].
      destruct (decide (wc a b = 0)) as [|E2]; [lia|]. apply (wc_diff a b Ha Hb) in E2. by apply (wa_same a b Ha Hb) in E.
  Qed.
  Lemma C_W a b : a ∈ N -> b ∈ N -> C a b = wc a b.
  Proof using Hi HN Hs HC.
    intros Ha Hb. destruct (HC a b) as [[[_ Ht] Hr]|[Hn Hz]].
    - apply reads_grid in Hr; [|done..]. destruct (decide (wa a b = 0)) as [|E]; [lia|]. by apply (wa_same a b Ha Hb) in E.
    - rewrite Hz. destruct (decide (wc a b = 0)) as [|E]; [done|]. exfalso. apply Hn. split; [|by apply wc_diff]. apply linked_grid; [done..|].
      destruct (decide (wa a b = 0)) as [|E2]; [lia|]. apply (wa_same a b Ha Hb) in E2. by apply (wc_diff a b Ha Hb) in E.
  Qed.
  Lemma F_W a b : a ∈ V -> b ∈ V -> F a b = Wf a b.
  Proof using Hi HN Hs HF HV.
    intros Ha%HV Hb%HV. pose proof Ha as (x & l & -> & _ & Hl)%ex_grid%N_grid. pose proof Hb as (y & l2 & -> & _ & Hl2)%ex_grid%N_grid. unfold Wf.
    destruct (HF [x; l] [y; l2]) as [[(_ & _ & Ht & Hne) ->]|[Hn ->]].
    - simpl in Ht. injection Ht as <-. rewrite decide_True; [done|]. split; [done|congruence].
    - rewrite decide_False; [done|]. intros [<- Hxy]. apply Hn. split; [done|]. split; [done|]. split; [done|]. congruence.
  Qed.
  Local Notation IN := (lval wa wc Wf). Local Notation IV := (lval A C F).
  Lemma V_in_N a : a ∈ V -> a ∈ N. Proof using Hi HN HV. intros Ha%HV. by apply ex_grid. Qed.
  Lemma sum_VN (f : nl -> Z) : (forall a, a ∈ N -> a ∉ V -> f a = 0) -> zsumf f N = zsumf f V.
  Proof using Hi HN HV.
    intros H0. rewrite (zsumf_sublist f (fun a => if decide (a ∈ V) then 1 else 0) V N); [|apply HV|apply N_nodup| |].
    - apply zsumf_ext. intros a Ha. destruct (decide (a ∈ V)) as [|Hn]; [lia|]. rewrite H0 by done. done.
    - intros a Ha. split; [by apply V_in_N|]. by rewrite decide_True.
    - intros a _ Hn. by rewrite decide_False.
  Qed.
  Definition first (u : list letter) : Prop := match u with LA :: _ | LC :: _ => True | _ => False end.
  Lemma first_out u a b : first u -> a ∈ N -> a ∉ V -> mprod N (IN <$> u) a b = 0 /\ mprod V (IV <$> u) a b = 0.
  Proof using Hi HN Hs HV HA HC.
    intros Hu Ha Hn. assert (forall M c, M = wa \/ M = wc -> M a c = 0) as HM.
    { intros M c [-> | ->].
      - destruct (decide (wa a c = 0)) as [|E]; [done|]. apply wa_ex in E as [E _]. by apply HV in E.
      - destruct (decide (wc a c = 0)) as [|E]; [done|]. apply wc_ex in E as [E _]. by apply HV in E. }
    destruct u as [|[] u]; try done; cbn [fmap list_fmap mprod lval]; split; apply zsumf_zero; intros c Hc.
    - rewrite HM by auto. lia.
    - rewrite A_W, HM by auto using V_in_N. lia.
    - rewrite HM by auto. lia.
    - rewrite C_W, HM by auto using V_in_N. lia.
  Qed.
  Lemma walk_eq u : okw u -> forall a b, a ∈ V -> b ∈ V -> mprod N (IN <$> u) a b = mprod V (IV <$> u) a b.
  Proof using Hi HN Hs HV HA HC HF.
    induction u as [|x u IH]; intros Hok a b Ha Hb; [done|]. cbn [fmap list_fmap mprod]. unfold mmul. destruct x; cbn [lval].
    - rewrite sum_VN.
      + apply zsumf_ext. intros c Hc. rewrite A_W by auto using V_in_N. f_equal. by apply IH.
      + intros c Hc Hn. destruct (decide (wa a c = 0)) as [->|E]; [done|]. apply wa_ex in E as [_ E]. by apply HV in E.
    - rewrite sum_VN.
      + apply zsumf_ext. intros c Hc. rewrite C_W by auto using V_in_N. f_equal. by apply IH.
      + intros c Hc Hn. destruct (decide (wc a c = 0)) as [->|E]; [done|]. apply wc_ex in E as [_ E]. by apply HV in E.
    - assert (first u /\ okw u) as [Hf Hu] by (destruct u as [|[] ?]; done). rewrite sum_VN.
      + apply zsumf_ext. intros c Hc. rewrite F_W by done. f_equal. by apply IH.
      + intros c Hc Hn. destruct (first_out u c b Hf Hc Hn) as [E _]. unfold mprod in E |- *. rewrite E. lia.
  Qed.
  Lemma closed_eq u a : okw u -> first u -> a ∈ N -> mprod N (IN <$> u) a a = mprod V (IV <$> u) a a.
  Proof using Hi HN Hs HV HA HC HF.
    intros Hu Hf Ha. destruct (decide (a ∈ V)) as [Hv|Hn]; [by apply walk_eq|]. destruct (first_out u a a Hf Ha Hn) as [-> ->]. done.
  Qed.
End Walk.

(** ** Fully interconnected networks *)
Section Fully.
  Context (w : Z) (h : list call) (p : mpx) (Hi : pinv [CCat w] false 0 true h p) (Hs : no_loops p).
  Context (N : list nl) (HN : supra_nodes (mslices p) = Ok N).
  Local Notation wa := (Wa p). Local Notation wc := (Wc w p). Local Notation b_ := (Z.of_nat (length (lays p))).
  Lemma wc_fi x l y l2 : [x; l] ∈ N -> [y; l2] ∈ N -> wc [x; l] [y; l2] = if decide (x = y /\ l <> l2) then w else 0.
  Proof using Hi HN.
    intros (? & ? & [= <- <-] & Hx & Hl)%(N_grid _ _ _ _ Hi N HN) (? & ? & [= <- <-] & Hy & Hl2)%(N_grid _ _ _ _ Hi N HN). unfold Wc.
    destruct (decide (x = y /\ l <> l2)) as [[<- Hne]|Hno].
    - rewrite decide_True; [done|]. split; [done|]. split; [done|]. split; apply (fi_el _ _ _ _ Hi); try done; apply Hi.
    - rewrite decide_False; [done|]. intros (-> & ? & _). by apply Hno.
  Qed.
  Lemma grid_in x l : [x; l] ∈ N <-> x ∈ mnodes p /\ l ∈ lays p.
  Proof using Hi HN. rewrite (N_grid _ _ _ _ Hi N HN). split; [by intros (? & ? & [= <- <-] & ? & ?)|]. intros [? ?]. by exists x, l. Qed.
  Lemma sum_one (f : nl -> Z) a : a ∈ N -> (forall c, c ∈ N -> c <> a -> f c = 0) -> zsumf f N = f a.
  Proof using Hi HN.
    intros Ha H0. rewrite (zsumf_ext _ (fun c => ind (c = a) * f c)).
    - by rewrite (zsumf_point f N a (N_nodup _ _ _ _ Hi N HN) Ha).
    - intros c Hc. unfold ind. destruct (decide (c = a)) as [->|Hne]; [lia|]. rewrite H0 by done. lia.
  Qed.
  Lemma fc_cf a b : a ∈ N -> b ∈ N -> mmul N wc Wf a b = mmul N Wf wc a b.
  Proof using Hi HN.
    intros Ha Hb. pose proof Ha as (x & l & -> & Hx & Hl)%(N_grid _ _ _ _ Hi N HN). pose proof Hb as (y & l2 & -> & Hy & Hl2)%(N_grid _ _ _ _ Hi N HN). unfold mmul.
    rewrite (sum_one _ [x; l2]), (sum_one _ [y; l]).
    - rewrite !wc_fi by (by apply grid_in). unfold Wf. destruct (decide (x = y)) as [<-|Hxy].
      + rewrite (decide_False (P := l2 = l2 /\ _)) by tauto. rewrite (decide_False (P := l = l /\ _)) by tauto. lia.
      + rewrite (decide_True (P := l2 = l2 /\ _)) by tauto. rewrite (decide_True (P := l = l /\ _)) by tauto.
        destruct (decide (l = l2)) as [->|Hne]; [rewrite !decide_False by tauto; done|]. rewrite !decide_True by done. lia.
    - by apply grid_in.
    - intros c Hc Hne. pose proof Hc as (z & m & -> & _ & _)%(N_grid _ _ _ _ Hi N HN). rewrite wc_fi by done. unfold Wf.
      destruct (decide (l = m /\ x <> z)) as [[-> _]|]; [|done]. destruct (decide (z = y /\ m <> l2)) as [[-> _]|]; [by destruct Hne|lia].
    - by apply grid_in.
    - intros c Hc Hne. pose proof Hc as (z & m & -> & _ & _)%(N_grid _ _ _ _ Hi N HN). rewrite wc_fi by done. unfold Wf.
      destruct (decide (x = z /\ l <> m)) as [[-> _]|]; [|done]. destruct (decide (m = l2 /\ z <> y)) as [[-> _]|]; [by destruct Hne|lia].
  Qed.
  Lemma N_sum (f : nl -> Z) : zsumf f N = zsumf (fun x => zsumf (fun l => f [x; l]) (lays p)) (mnodes p).
  Proof using Hi HN.
    rewrite (zsumf_perm f N (cart [mnodes p; lays p])).
    2:
    { apply NoDup_Permutation; [apply (N_nodup _ _ _ _ Hi N HN)| |].
      - apply NoDup_cart. rewrite <- (slices_eq _ _ _ _ Hi). apply (pw_nd p (pi_wf _ _ _ _ _ _ Hi)).
      - intros a. rewrite elem_of_cart, (N_grid _ _ _ _ Hi N HN). split.
        + intros (x & l & -> & ? & ?). by repeat constructor.
        + intros Ha. inversion Ha as [|x ? a' ? Hx Ha']; subst; inversion Ha' as [|l ? ? ? Hl Ha'']; subst; inversion Ha''; subst. by exists x, l. }
    cbn [cart]. rewrite zsumf_bind. apply zsumf_ext. intros x _. rewrite zsumf_fmap, zsumf_bind. apply zsumf_ext. intros l _.
    rewrite zsumf_fmap, zsumf_cons, zsumf_nil. lia.
  Qed.
  Lemma cc_eq a b : a ∈ N -> b ∈ N -> mmul N wc wc a b = w * w * (b_ - 1) * mid a b + w * (b_ - 2) * wc a b.
  Proof using Hi HN.
    intros Ha Hb. pose proof Ha as (x & l & -> & Hx & Hl)%(N_grid _ _ _ _ Hi N HN). pose proof Hb as (y & l2 & -> & Hy & Hl2)%(N_grid _ _ _ _ Hi N HN). unfold mmul.
    rewrite wc_fi by done. rewrite N_sum.
    rewrite (zsumf_ext _ (fun z => ind (z = x) * (ind (x = y) * (w * w) * zsumf (fun m => ind (m <> l) * ind (m <> l2)) (lays p)))).
    - rewrite (zsumf_point (fun z => ind (x = y) * (w * w) * zsumf (fun m => ind (m <> l) * ind (m <> l2)) (lays p)) (mnodes p) x) by (done || apply (NoDup_mnodes _ _ _ _ Hi)).
      unfold mid. destruct (decide (x = y)) as [<-|Hxy].
      + rewrite ind_true by done. destruct (decide (l = l2)) as [<-|Hll].
        * rewrite decide_True by done. rewrite decide_False by tauto. rewrite (zsumf_ext _ (fun m => ind (m <> l) * 1)).
          -- rewrite (n_skip1 _ _ _ _ Hi) by done. lia.
          -- intros m _. unfold ind. destruct (decide (m <> l)); lia.
        * rewrite (decide_False (P := [x; l] = [x; l2])) by congruence. rewrite decide_True by done.
          rewrite (n_skip2 _ _ _ _ Hi) by done. lia.
      + rewrite ind_false by done. rewrite decide_False by congruence. rewrite decide_False by tauto. lia.
    - intros z Hz. rewrite <- !zsumf_mul_l. apply zsumf_ext. intros m Hm. rewrite !wc_fi by (by apply grid_in). unfold ind.
      destruct (decide (z = x)) as [->|]; [|rewrite (decide_False (P := x = z /\ _)) by (intros [? _]; congruence); lia].
      destruct (decide (x = y)) as [->|]; [|rewrite (decide_False (P := x = y /\ _)) by tauto; lia].
      destruct (decide (m <> l)) as [|Hml]; [|apply dec_stable in Hml as ->; rewrite (decide_False (P := y = y /\ l <> l)) by tauto; lia].
      rewrite (decide_True (P := y = y /\ l <> m)) by (split; congruence).
      destruct (decide (m <> l2)) as [|Hml]; [|apply dec_stable in Hml as ->; rewrite (decide_False (P := y = y /\ l2 <> l2)) by tauto; lia].
      rewrite (decide_True (P := y = y /\ m <> l2)) by done. lia.
  Qed.
  Lemma fi1 a : a ∈ N -> mprod N [wa; Wf; wc; wa; wc] a a = mprod N [wa; wc; Wf; wa; wc] a a.
  Proof using Hi HN.
    intros Ha. rewrite (mprod_pair N [wa] Wf wc [wa; wc]), (mprod_pair N [wa] wc Wf [wa; wc]) by done. symmetry. apply (mprod_cong N [wa]); [|done]. apply fc_cf.
  Qed.
  Lemma wcfc Ms a b : a ∈ N -> mprod N (wa :: wc :: Wf :: wc :: Ms) a b =
    w * w * (b_ - 1) * mprod N (wa :: Wf :: Ms) a b + w * (b_ - 2) * mprod N (wa :: Wf :: wc :: Ms) a b.
  Proof using Hi HN.
    intros Ha. rewrite (mprod_pair N [wa] wc Wf (wc :: Ms)) by done. rewrite (mprod_cong N [wa] _ (mmul N Wf wc) (wc :: Ms)) by (done || apply fc_cf).
    rewrite <- (mprod_pair N [wa] Wf wc (wc :: Ms)) by done. cbn [app]. rewrite (mprod_pair N [wa; Wf] wc wc Ms) by done.
    rewrite (mprod_split N [wa; Wf] _ (fun a b => w * w * (b_ - 1) * mid a b) (fun a b => w * (b_ - 2) * wc a b) Ms) by (done || apply cc_eq).
    rewrite (mprod_scale N [wa; Wf] (fun a b => w * w * (b_ - 1) * mid a b) (w * w * (b_ - 1)) mid Ms) by done.
    rewrite (mprod_scale N [wa; Wf] (fun a b => w * (b_ - 2) * wc a b) (w * (b_ - 2)) wc Ms) by done.
    rewrite (mprod_mid N [wa; Wf] Ms) by (done || apply (N_nodup _ _ _ _ Hi N HN)). done.
  Qed.
  Local Ltac sp := first [apply (wa_same _ _ _ _ Hi N HN)|apply (wf_same _ _ _ _ Hi N HN)|apply (wc_diff _ _ _ _ Hi N HN)|apply supp_id].
  Lemma fi2 a : a ∈ N -> mprod N [wa; wc; Wf; wc; wa] a a = w * w * (b_ - 1) * mprod N [wa; Wf; wa] a a.
  Proof using Hi HN.
    intros Ha. rewrite wcfc by done. rewrite (diff_zero N (mprod N [wa; Wf; wc; wa]) a Ha); [lia|].
    apply supp_sd; [sp|]. apply supp_sd; [sp|]. apply supp_ds; [sp|]. apply supp_ss; sp.
  Qed.
  Lemma fi3 a : a ∈ N -> mprod N [wa; wc; Wf; wc; wa; wc] a a = w * (b_ - 2) * mprod N [wa; Wf; wc; wa; wc] a a.
  Proof using Hi HN.
    intros Ha. rewrite wcfc by done. rewrite (diff_zero N (mprod N [wa; Wf; wa; wc]) a Ha); [lia|].
    apply supp_sd; [sp|]. apply supp_sd; [sp|]. apply supp_sd; [sp|]. apply supp_ds; sp.
  Qed.
End Fully.

(** ** [cc_cycle_vector_adj] *)
Lemma index_of_in a N : a ∈ N -> exists i, index_of a N = Ok i /\ N !! i = Some a.
Proof.
  induction N as [|b N IH]; [by intros ?%elem_of_nil|]. intros Ha. simpl. destruct (decide (a = b)) as [->|Hne]; [by exists 0%nat|].
  apply elem_of_cons in Ha as [?|Ha]; [done|]. destruct (IH Ha) as (i & -> & Hi). by exists (S i).
Qed.
Lemma index_of_out a N : a ∉ N -> index_of a N = Err ValueError.
Proof.
  induction N as [|b N IH]; [done|]. intros [Hne Ha]%not_elem_of_cons. simpl. rewrite decide_False by done. by rewrite IH.
Qed.
Lemma at_tab N i a M Ms ms : NoDup N -> ms = tab N <$> Ms -> N !! i = Some a ->
  (let? r := mat_chain (tab N M) ms in Ok (ment r i i)) = Ok (mprod N (M :: Ms) a a).
Proof. intros HN -> Hi. rewrite tab_chain by done. cbn [rbind]. by rewrite (ment_tab N _ i i a a). Qed.
Section Adj.
  Context (w : Z) (fi : bool) (h : list call) (p : mpx) (Hi : pinv [CCat w] false 0 fi h p) (Hs : no_loops p).
  Context (N : list nl) (HN : supra_nodes (mslices p) = Ok N).
  Local Notation wa := (Wa p). Local Notation wc := (Wc w p). Local Notation b_ := (Z.of_nat (length (lays p))).
  Lemma c_mat : mat_sub (tab N (fun a b => wa a b + wc a b)) (tab N wa) = tab N wc.
  Proof. rewrite tab_sub. apply tab_ext. intros. lia. Qed.
  Lemma adj_mats_eq : adj_mats p = Ok (tab N wa, tab N wc).
  Proof using Hi Hs HN. unfold adj_mats. rewrite (supra_full w fi h p Hi Hs N HN), (supra_intra w fi h p Hi Hs N HN). cbn [rbind fst]. by rewrite c_mat. Qed.
  Lemma ch3 a : a ∈ N -> let ch := fun a b => wc a b + mid a b in
    mprod N [wa; ch; wa; ch; wa; ch] a a = mprod N [wa; wa; wa] a a + mprod N [wa; wa; wc; wa; wc] a a + mprod N [wa; wc; wa; wa; wc] a a +
      mprod N [wa; wc; wa; wc; wa] a a + mprod N [wa; wc; wa; wc; wa; wc] a a.
  Proof using Hi HN.
    intros Ha ch. pose proof (N_nodup _ _ _ _ Hi N HN) as Hnd.
    assert (forall Ms1 Ms2, mprod N (Ms1 ++ ch :: Ms2) a a = mprod N (Ms1 ++ wc :: Ms2) a a + mprod N (Ms1 ++ Ms2) a a) as Hch.
    { intros Ms1 Ms2. rewrite (mprod_split N Ms1 ch wc mid Ms2) by done. by rewrite mprod_mid. }
    pose proof (Hch [wa] [wa; ch; wa; ch]) as E1. pose proof (Hch [wa; wc; wa] [wa; ch]) as E2. pose proof (Hch [wa; wa] [wa; ch]) as E3.
    pose proof (Hch [wa; wc; wa; wc; wa] []) as E4. pose proof (Hch [wa; wc; wa; wa] []) as E5. pose proof (Hch [wa; wa; wc; wa] []) as E6.
    pose proof (Hch [wa; wa; wa] []) as E7. cbn [app] in E1, E2, E3, E4, E5, E6, E7.
    assert (forall M, supp N diff M -> M a a = 0) as Hz by (intros M HM; by eapply diff_zero).
    pose proof (wa_same _ _ _ _ Hi N HN) as Sa. pose proof (wc_diff _ _ _ _ Hi N HN) as Sc. pose proof (supp_id N) as S1.
    pose proof (Hz (mprod N [wa; wc; wa; wa]) ltac:(apply supp_sd; [done|]; apply supp_ds; [done|]; apply supp_ss; [done|]; by apply supp_ss)) as Z1.
    pose proof (Hz (mprod N [wa; wa; wc; wa]) ltac:(apply supp_sd; [done|]; apply supp_sd; [done|]; apply supp_ds; [done|]; by apply supp_ss)) as Z2.
    pose proof (Hz (mprod N [wa; wa; wa; wc]) ltac:(apply supp_sd; [done|]; apply supp_sd; [done|]; apply supp_sd; [done|]; by apply supp_ds)) as Z3. lia.
  Qed.
  Definition checks (v : list Z) : res unit :=
    match v with
    | [aaa; aacac; acaac; acaca; acacac; afa; afcac; acfac; acfca; acfcac] =>
      if fi then
        let? _ := passert (afcac =? acfac) in
        let? _ := passert ((b_ - 1) * afa =? acfca) in
        passert (acfcac =? (b_ - 2) * afcac)
      else Ok tt
    | _ => Ok tt
    end.
  Definition adj_rest (x l : name) (a c : mat) (i : nat) (f : mat) : res (list Z) :=
    let at_ (m : mat) (ms : list mat) : res Z := let? r := mat_chain m ms in Ok (ment r i i) in
    let? afa := at_ a [f; a] in
    let? afcac := at_ a [f; c; a; c] in
    let? acfac := at_ a [c; f; a; c] in
    let? acfca := at_ a [c; f; c; a] in
    let? acfcac := at_ a [c; f; c; a; c] in
    let? layers := pslices p 1 in
    let b := Z.of_nat (length layers) in
    let? _ := if mfic p then
                let? _ := passert (afcac =? acfac) in
                let? _ := passert ((b - 1) * afa =? acfca) in
                passert (acfcac =? (b - 2) * afcac)
              else Ok tt in
    Ok (((fun W => mprod N W [x; l] [x; l]) <$> [[wa; wa; wa]; [wa; wa; wc; wa; wc]; [wa; wc; wa; wa; wc]; [wa; wc; wa; wc; wa]; [wa; wc; wa; wc; wa; wc]]) ++ [afa; afcac; acfac; acfca; acfcac]).
  Lemma adj_prefix x l i : index_of [x; l] N = Ok i -> N !! i = Some [x; l] ->
    cc_cycle_vector_adj p x l = let? f := full_matrix p in adj_rest x l (tab N wa) (tab N wc) i f.
  Proof using Hi Hs HN.
    intros Hix Hl. pose proof (N_nodup _ _ _ _ Hi N HN) as Hnd. assert ([x; l] ∈ N) as Hx by (by eapply elem_of_list_lookup_2).
    unfold cc_cycle_vector_adj. rewrite (supra_full w fi h p Hi Hs N HN). cbn [rbind fst snd].
    unfold set_coup. rewrite (pi_coup _ _ _ _ _ _ Hi). cbn [rbind]. change (MkMpx [CCat 0] _ _ _ _ _ _) with (noc p).
    pose proof (noc_inv w fi h p Hi Hs) as H0. assert (no_loops (noc p)) as Hs0 by exact Hs.
    rewrite (supra_full 0 fi h (noc p) H0 Hs0 N HN). cbn [rbind fst snd].
    assert (tab N (fun a b => Wa (noc p) a b + Wc 0 (noc p) a b) = tab N wa) as ->.
    { apply tab_ext. intros a b _ _. change (Wa (noc p) a b) with (wa a b). assert (Wc 0 (noc p) a b = 0) as ->; [|lia].
      unfold Wc. destruct a as [|? [|? []]]; try done. destruct b as [|? [|? []]]; try done. by destruct (decide _). }
    rewrite (supra_intra w fi h p Hi Hs N HN). cbn [rbind fst snd]. rewrite !bool_decide_eq_true_2 by done. cbn [passert rbind].
    rewrite c_mat, tab_length, tab_eye, tab_add by done. rewrite Hix. cbn [rbind]. cbv beta zeta.
    rewrite (at_tab N i [x; l] wa [wa; wa] [tab N wa; tab N wa] Hnd eq_refl Hl). cbn [rbind].
    rewrite (at_tab N i [x; l] wa [wa; wc; wa; wc] [tab N wa; tab N wc; tab N wa; tab N wc] Hnd eq_refl Hl). cbn [rbind].
    rewrite (at_tab N i [x; l] wa [wc; wa; wa; wc] [tab N wc; tab N wa; tab N wa; tab N wc] Hnd eq_refl Hl). cbn [rbind].
    rewrite (at_tab N i [x; l] wa [wc; wa; wc; wa] [tab N wc; tab N wa; tab N wc; tab N wa] Hnd eq_refl Hl). cbn [rbind].
    rewrite (at_tab N i [x; l] wa [wc; wa; wc; wa; wc] [tab N wc; tab N wa; tab N wc; tab N wa; tab N wc] Hnd eq_refl Hl). cbn [rbind].
    rewrite (at_tab N i [x; l] wc [wa; wc; wa; wa] [tab N wa; tab N wc; tab N wa; tab N wa] Hnd eq_refl Hl). cbn [rbind].
    rewrite (at_tab N i [x; l] wc [wa; wa; wc; wa] [tab N wa; tab N wa; tab N wc; tab N wa] Hnd eq_refl Hl). cbn [rbind].
    rewrite (at_tab N i [x; l] wc [wa; wc; wa; wc; wa] [tab N wa; tab N wc; tab N wa; tab N wc; tab N wa] Hnd eq_refl Hl). cbn [rbind].
    assert (forall Ms, Forall (fun M => M = wa \/ M = wc) Ms -> mprod N (reverse Ms) [x; l] [x; l] = mprod N Ms [x; l] [x; l]) as Hrev.
    { intros Ms HMs. apply mprod_rev; [done| |done..]. eapply Forall_impl; [exact HMs|]. intros M [-> | ->]; [apply (wa_sym _ _ _ _ Hi N HN)|apply (wc_sym _ _ _ _ Hi N HN)]. }
    assert (forall Ms Ms', Ms' = reverse Ms -> Forall (fun M => M = wa \/ M = wc) Ms -> passert (mprod N Ms [x; l] [x; l] =? mprod N Ms' [x; l] [x; l]) = Ok tt) as Has.
    { intros Ms Ms' -> HF. rewrite Hrev by done. by rewrite Z.eqb_refl. }
    do 3 (rewrite Has; [cbn [rbind]|done|by repeat first [apply Forall_nil_2|apply Forall_cons_2; [auto|]]]).
    rewrite (at_tab N i [x; l] wa [fun a b => wc a b + mid a b; wa; fun a b => wc a b + mid a b; wa; fun a b => wc a b + mid a b] [tab N (fun a b => wc a b + mid a b); tab N wa; tab N (fun a b => wc a b + mid a b); tab N wa; tab N (fun a b => wc a b + mid a b)] Hnd eq_refl Hl). cbn [rbind].
    rewrite (ch3 [x; l] Hx), Z.eqb_refl. cbn [passert rbind].
    reflexivity.
  Qed.
  Lemma adj_value x l : two (mnodes p) -> [x; l] ∈ N -> let v := (fun W => mprod N W [x; l] [x; l]) <$> cycle_words wa wc Wf in
    cc_cycle_vector_adj p x l = let? _ := checks v in Ok v.
  Proof using Hi Hs HN.
    intros H2 Hx v. pose proof (N_nodup _ _ _ _ Hi N HN) as Hnd. destruct (index_of_in _ _ Hx) as (i & Hix & Hl).
    rewrite (adj_prefix x l i Hix Hl).
    rewrite (full_many w fi h p Hi N H2 HN). cbn [rbind]. unfold adj_rest. cbv beta zeta.
    rewrite (at_tab N i [x; l] wa [Wf; wa] [tab N Wf; tab N wa] Hnd eq_refl Hl). cbn [rbind].
    rewrite (at_tab N i [x; l] wa [Wf; wc; wa; wc] [tab N Wf; tab N wc; tab N wa; tab N wc] Hnd eq_refl Hl). cbn [rbind].
    rewrite (at_tab N i [x; l] wa [wc; Wf; wa; wc] [tab N wc; tab N Wf; tab N wa; tab N wc] Hnd eq_refl Hl). cbn [rbind].
    rewrite (at_tab N i [x; l] wa [wc; Wf; wc; wa] [tab N wc; tab N Wf; tab N wc; tab N wa] Hnd eq_refl Hl). cbn [rbind].
    rewrite (at_tab N i [x; l] wa [wc; Wf; wc; wa; wc] [tab N wc; tab N Wf; tab N wc; tab N wa; tab N wc] Hnd eq_refl Hl). cbn [rbind].
    unfold pslices. rewrite (slices_eq w fi h p Hi). cbn [lookup list_lookup rbind]. rewrite (pi_fic _ _ _ _ _ _ Hi). reflexivity.
  Qed.
  Lemma adj_few x l : ~ two (mnodes p) -> [x; l] ∈ N -> cc_cycle_vector_adj p x l = Err ValueError.
  Proof using Hi Hs HN.
    intros H2 Hx. destruct (index_of_in _ _ Hx) as (i & Hix & Hl). rewrite (adj_prefix x l i Hix Hl), (full_few w fi h p Hi H2). cbn [rbind].
    unfold adj_rest, mat_chain. cbn [rfold]. unfold mat_mul at 1. rewrite tab_length. rewrite decide_False; [done|]. apply lookup_lt_Some in Hl. simpl. lia.
  Qed.
  Lemma adj_unknown x l : [x; l] ∉ N -> cc_cycle_vector_adj p x l = Err ValueError.
  Proof using Hi Hs HN.
    intros Hx. unfold cc_cycle_vector_adj. rewrite (supra_full w fi h p Hi Hs N HN). cbn [rbind fst snd].
    unfold set_coup. rewrite (pi_coup _ _ _ _ _ _ Hi). cbn [rbind]. change (MkMpx [CCat 0] _ _ _ _ _ _) with (noc p).
    pose proof (noc_inv w fi h p Hi Hs) as H0. assert (no_loops (noc p)) as Hs0 by exact Hs.
    rewrite (supra_full 0 fi h (noc p) H0 Hs0 N HN). cbn [rbind fst snd].
    assert (tab N (fun a b => Wa (noc p) a b + Wc 0 (noc p) a b) = tab N wa) as ->.
    { apply tab_ext. intros a b _ _. change (Wa (noc p) a b) with (wa a b). assert (Wc 0 (noc p) a b = 0) as ->; [|lia].
      unfold Wc. destruct a as [|? [|? []]]; try done. destruct b as [|? [|? []]]; try done. by destruct (decide _). }
    rewrite (supra_intra w fi h p Hi Hs N HN). cbn [rbind fst snd]. rewrite !bool_decide_eq_true_2 by done. cbn [passert rbind].
    by rewrite index_of_out.
  Qed.
End Adj.
Lemma supra_unsortable w fi h p inc : pinv [CCat w] false 0 fi h p -> ~ sortable p -> msupra p inc = Err TypeError.
Proof.
  intros Hi Hn. unfold msupra, supra. rewrite (pinv_asp _ _ _ _ _ _ Hi). cbn [length]. rewrite decide_True by lia.
  destruct (supra_nodes (mslices p)) as [N|e] eqn:E; [destruct Hn; apply sort_ok; eauto|]. cbn [rbind].
  unfold supra_nodes in E. destruct (rmapM py_sorted (rev (mslices p))) as [ss|e'] eqn:E'; [done|]. cbn [rbind] in E. injection E as <-.
  apply Supra.rmapM_err in E' as (s & _ & He). unfold py_sorted in He. destruct (_ && _); [by injection He as <-|done].
Qed.

(** ** Sums of products *)
Definition word : Type := (nl -> nl -> Z) * list (nl -> nl -> Z).
Definition tw (N : list nl) (W : word) : mat * list mat := (tab N (W.1), tab N <$> W.2).
Definition wl_ (W : word) : list (nl -> nl -> Z) := W.1 :: W.2.
Lemma tab_sum N W Ws : NoDup N -> mat_sum (tw N W :: (tw N <$> Ws)) = Ok (tab N (fun a b => zsumf (fun U => mprod N (wl_ U) a b) (W :: Ws))).
Proof.
  intros HN. unfold mat_sum, tw at 1 2. cbn [fst snd]. rewrite tab_chain by done. cbn [rbind].
  assert (forall X, rfold (fun acc v => let? y := mat_chain (v.1) (v.2) in Ok (mat_add acc y)) (tab N X) (tw N <$> Ws) =
    Ok (tab N (fun a b => X a b + zsumf (fun U => mprod N (wl_ U) a b) Ws))) as HX.
  { induction Ws as [|U Ws IH]; intros X; cbn [fmap list_fmap rfold].
    - f_equal. apply tab_ext. intros a b _ _. rewrite zsumf_nil. lia.
    - unfold tw at 1 2. cbn [fst snd]. rewrite tab_chain by done. cbn [rbind]. rewrite tab_add, IH. f_equal. apply tab_ext. intros a b _ _. rewrite zsumf_cons. unfold wl_ at 2. lia. }
  rewrite HX. reflexivity.
Qed.
Lemma tab_diag N M : mat_diag (tab N M) = (fun a => M a a) <$> N.
Proof. unfold mat_diag. rewrite tab_length. apply fmap_seq. intros i a Ha. by apply ment_tab. Qed.
Lemma tab_off N M : NoDup N -> mat_off (tab N M) = zsumf (fun a => zsumf (fun b => if decide (a = b) then 0 else M a b) N) N.
Proof.
  intros HN. unfold mat_off. rewrite tab_length. apply zsumf_seq. intros i a Ha. apply zsumf_seq. intros j b Hb. rewrite (ment_tab N M i j a b) by done.
  destruct (decide (i = j)) as [->|Hij]; [rewrite decide_True by congruence; done|]. rewrite decide_False; [done|].
  intros ->. by apply Hij, (NoDup_lookup N i j b).
Qed.
