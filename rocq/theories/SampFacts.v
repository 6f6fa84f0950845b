(** * Facts about the sampling model: combinations and inclusion-exclusion. *)
From stdpp Require Import prelude strings sorting.
From Coq Require Import QArith.
From Verif Require Import Base Net NetSpec Build Trans Samp SampSpec.
Local Open Scope nat_scope.

(** ** combinations *)
Lemma combs_0 {A} (l : list A) : combs 0 l = [[]].
Proof. by destruct l. Qed.
Lemma combs_S_cons {A} k (x : A) l : combs (S k) (x :: l) = ((x ::.) <$> combs k l) ++ combs (S k) l.
Proof. done. Qed.
Lemma elem_of_combs {A} k (l c : list A) : c ∈ combs k l <-> sublist c l /\ length c = k.
Proof.
  revert k c. induction l as [|x l IH]; intros k c.
  - destruct k as [|k].
    + rewrite combs_0, elem_of_list_singleton. split; [intros ->; split; [constructor|done]|].
      intros [_ H]. by destruct c.
    + cbn [combs]. split; [by intros ?%elem_of_nil|]. intros [->%sublist_nil_r H]. done.
  - destruct k as [|k].
    + rewrite combs_0, elem_of_list_singleton. split; [intros ->; split; [apply sublist_nil_l|done]|].
      intros [_ H]. by destruct c.
    + rewrite combs_S_cons, elem_of_app, elem_of_list_fmap, IH. split.
      * intros [(d & -> & Hd)|[H1 H2]].
        -- apply IH in Hd as [H1 H2]. split; [by apply sublist_skip|simpl; lia].
        -- split; [by apply sublist_cons|done].
      * intros [H1 H2]. apply sublist_cons_r in H1 as [H1|(d & -> & H1)]; [by right|]. left. exists d. split; [done|].
        apply IH. simpl in H2. split; [done|lia].
Qed.
Lemma combs_gt {A} k (l : list A) : length l < k -> combs k l = [].
Proof.
  intros H. destruct (combs k l) as [|c cs] eqn:E; [done|]. assert (c ∈ combs k l) as [H1%sublist_length H2]%elem_of_combs by (rewrite E; left). lia.
Qed.
Lemma combs_fmap {A B} (f : A -> B) k (l : list A) : combs k (f <$> l) = (fun c : list A => f <$> c) <$> combs k l.
Proof.
  revert k. induction l as [|x l IH]; intros k; (destruct k as [|k]; [by rewrite !combs_0|]); [done|].
  rewrite fmap_cons, !combs_S_cons, fmap_app, !IH. f_equal. rewrite <- !list_fmap_compose. done.
Qed.
Lemma role_sets_fmap {A B} (f : A -> B) (l : list A) : role_sets (f <$> l) = (fun c : list A => f <$> c) <$> role_sets l.
Proof.
  unfold role_sets. rewrite fmap_length. generalize (seq 2 (length l - 1)) as ks. induction ks as [|k ks IH]; [done|].
  rewrite !bind_cons, fmap_app, IH. by rewrite combs_fmap.
Qed.
Lemma sublist_NoDup' {A} (l k : list A) : sublist l k -> NoDup k -> NoDup l.
Proof.
  induction 1 as [|x l k H IH|x l k H IH]; intros Hn; [done| |].
  - apply NoDup_cons in Hn as [Hx Hn]. apply NoDup_cons. split; [|by apply IH]. intros Hin. apply Hx. eapply sublist_submseteq, elem_of_submseteq in H; done.
  - apply NoDup_cons in Hn as [Hx Hn]. by apply IH.
Qed.
Lemma sublist_elem {A} (l k : list A) x : sublist l k -> x ∈ l -> x ∈ k.
Proof. intros H Hx. eapply elem_of_submseteq; [done|]. by apply sublist_submseteq. Qed.
Lemma NoDup_combs {A} k (l : list A) : NoDup l -> NoDup (combs k l).
Proof.
  revert k. induction l as [|x l IH]; intros k Hn; (destruct k as [|k]; [rewrite combs_0; apply NoDup_singleton|]); [apply NoDup_nil; done|].
  apply NoDup_cons in Hn as [Hx Hn]. rewrite combs_S_cons. apply NoDup_app. split_and!.
  - apply NoDup_fmap; [|by apply IH]. by intros ?? [= ?].
  - intros c (d & -> & _)%elem_of_list_fmap [H _]%elem_of_combs. apply Hx. eapply sublist_elem; [done|]. left.
  - by apply IH.
Qed.
(** Two sublists of a duplicate-free list with the same elements are equal. *)
Lemma sublist_ext {A} (l c d : list A) : NoDup l -> sublist c l -> sublist d l -> (forall x, x ∈ c <-> x ∈ d) -> c = d.
Proof.
  revert c d. induction l as [|x l IH]; intros c d Hn Hc Hd He.
  - apply sublist_nil_r in Hc as ->. by apply sublist_nil_r in Hd as ->.
  - apply NoDup_cons in Hn as [Hx Hn]. apply sublist_cons_r in Hc as [Hc|(c' & -> & Hc)]; apply sublist_cons_r in Hd as [Hd|(d' & -> & Hd)].
    + by apply IH.
    + exfalso. apply Hx. eapply sublist_elem; [exact Hc|]. apply He. left.
    + exfalso. apply Hx. eapply sublist_elem; [exact Hd|]. apply He. left.
    + f_equal. apply IH; [done..|]. intros y. specialize (He y). rewrite !elem_of_cons in He.
      assert (y ∈ c' -> y <> x). { intros Hy ->. apply Hx. exact (sublist_elem _ _ _ Hc Hy). }
      assert (y ∈ d' -> y <> x). { intros Hy ->. apply Hx. exact (sublist_elem _ _ _ Hd Hy). }
      naive_solver.
Qed.
(** Every subset of a duplicate-free list is one of its sublists. *)
Lemma sublist_of {A} `{EqDecision A} (l c : list A) : NoDup l -> NoDup c -> (forall x, x ∈ c -> x ∈ l) ->
  exists d, d ∈ combs (length c) l /\ d ≡ₚ c.
Proof.
  intros Hl Hc Hs. exists (filter (.∈ c) l).
  assert (filter (.∈ c) l ≡ₚ c) as Hp.
  { apply NoDup_Permutation; [by apply NoDup_filter|done|]. intros x. rewrite elem_of_list_filter. naive_solver. }
  split; [|done]. apply elem_of_combs. split; [|by apply Permutation_length].
  clear. induction l as [|x l IH]; [constructor|]. rewrite filter_cons. destruct (decide (x ∈ c)); by constructor.
Qed.

(** ** inclusion-exclusion *)
(** Number of sets of a list that contain [x], weighted: for one element. *)
Definition inall (x : name) (c : list (list name)) : Z := if decide (Forall (fun S => x ∈ S) c) then 1%Z else 0%Z.
Definition sgn (i : nat) : Z := if decide (i mod 2 = 0) then 1%Z else (-1)%Z.
Lemma sgn_S i : sgn (S i) = (- sgn i)%Z.
Proof.
  unfold sgn. destruct (decide (i mod 2 = 0)) as [H|H]; destruct (decide (S i mod 2 = 0)) as [H'|H']; try done;
    exfalso; rewrite Nat.mod_eq in H, H' by done; pose proof (Nat.div_mod i 2); pose proof (Nat.mod_upper_bound i 2); pose proof (Nat.mod_upper_bound (S i) 2); pose proof (Nat.div_mod (S i) 2); lia.
Qed.
Lemma inall_cons x S c : inall x (S :: c) = (if decide (x ∈ S) then inall x c else 0)%Z.
Proof.
  unfold inall. destruct (decide (Forall (fun T => x ∈ T) (S :: c))) as [[H1 H2]%Forall_cons|H]; destruct (decide (x ∈ S)) as [H3|H3]; try done.
  - by rewrite decide_True.
  - rewrite decide_False; [done|]. intros H4. apply H. by apply Forall_cons.
Qed.
(** Signed number of the combinations of at most [N] sets all containing [x]. *)
Definition signed (x : name) (N : nat) (F : list (list name)) : Z :=
  zsumf (fun i => sgn i * zsumf (inall x) (combs i F))%Z (seq 0 (S N)).
Lemma seq_S_last a N : seq a (S N) = seq a N ++ [a + N].
Proof. apply seq_S. Qed.
Lemma signed_extra x F N : length F <= N -> signed x (S N) F = signed x N F.
Proof.
  intros H. unfold signed. rewrite (seq_S_last 0 (S N)), zsumf_app, zsumf_cons, zsumf_nil. rewrite combs_gt by lia. rewrite zsumf_nil. lia.
Qed.
Lemma signed_cons x S F N : length F <= N -> signed x (Datatypes.S N) (S :: F) = ((if decide (x ∈ S) then 0 else 1) * signed x N F)%Z.
Proof.
  intros HN. rewrite <- (signed_extra x F N HN) at 1. unfold signed at 1 2.
  change (seq 0 (Datatypes.S (Datatypes.S N))) with (0 :: seq 1 (Datatypes.S N)). rewrite !zsumf_cons, !combs_0.
  rewrite <- (fmap_S_seq 0 (Datatypes.S N)), !zsumf_fmap.
  assert (zsumf (inall x) [[]] = 1)%Z as -> by done. change (sgn 0) with 1%Z.
  assert (zsumf (fun i => sgn (Datatypes.S i) * zsumf (inall x) (combs (Datatypes.S i) (S :: F)))%Z (seq 0 (Datatypes.S N)) =
    zsumf (fun i => - (if decide (x ∈ S) then 1 else 0) * (sgn i * zsumf (inall x) (combs i F)) + sgn (Datatypes.S i) * zsumf (inall x) (combs (Datatypes.S i) F))%Z (seq 0 (Datatypes.S N))) as ->.
  { apply zsumf_ext. intros i _. rewrite combs_S_cons, zsumf_app, zsumf_fmap.
    assert (zsumf (fun c => inall x (S :: c)) (combs i F) = (if decide (x ∈ S) then 1 else 0) * zsumf (inall x) (combs i F))%Z as ->.
    { rewrite <- zsumf_mul_l. apply zsumf_ext. intros c _. rewrite inall_cons. destruct (decide (x ∈ S)); lia. }
    rewrite sgn_S. lia. }
  rewrite zsumf_add, zsumf_mul_l.
  fold (signed x N F). pose proof (signed_extra x F N HN) as HE. unfold signed at 1 in HE.
  change (seq 0 (Datatypes.S (Datatypes.S N))) with (0 :: seq 1 (Datatypes.S N)) in HE. rewrite zsumf_cons, combs_0 in HE.
  rewrite <- (fmap_S_seq 0 (Datatypes.S N)), zsumf_fmap in HE. assert (zsumf (inall x) [[]] = 1)%Z as He by done. rewrite He in HE. change (sgn 0) with 1%Z in HE.
  fold (signed x N F) in HE.
  destruct (decide (x ∈ S)); lia.
Qed.
Lemma signed_exact x F N : length F <= N -> signed x N F = if decide (Exists (fun S => x ∈ S) F) then 0%Z else 1%Z.
Proof.
  revert N. induction F as [|S F IH]; intros N HN.
  - rewrite decide_False by by intros ?%Exists_nil. induction N as [|N IHN]; [done|]. rewrite signed_extra by (simpl; lia). apply IHN. simpl. lia.
  - destruct N as [|N]; [simpl in HN; lia|]. simpl in HN. rewrite signed_cons by lia. rewrite IH by lia.
    destruct (decide (x ∈ S)) as [H1|H1].
    + rewrite (decide_True (P:=Exists _ (S :: F))) by (by left). lia.
    + destruct (decide (Exists (fun T => x ∈ T) F)) as [H2|H2].
      * rewrite (decide_True (P:=Exists _ (S :: F))) by (by right). lia.
      * rewrite (decide_False (P:=Exists _ (S :: F))); [lia|]. intros [?|?]%Exists_cons; done.
Qed.

Lemma length_zsumf {A} (l : list A) : Z.of_nat (length l) = zsumf (fun _ => 1%Z) l.
Proof. rewrite zsumf_const. lia. Qed.
(** [U] lists the union of the family, [I] the intersection of [c]. *)
Lemma length_inall (F : list (list name)) (U I : list name) (c : list (list name)) : lists_exactly U (fun x => exists S, S ∈ F /\ x ∈ S) ->
  c <> [] -> (forall S, S ∈ c -> S ∈ F) -> lists_exactly I (fun x => forall S, S ∈ c -> x ∈ S) -> Z.of_nat (length I) = zsumf (fun x => inall x c) U.
Proof.
  intros [HU1 HU2] Hc HcF [HI1 HI2].
  assert (I ≡ₚ filter (fun x => Forall (fun S => x ∈ S) c) U) as Hp.
  { apply NoDup_Permutation; [done|by apply NoDup_filter|]. intros x. rewrite elem_of_list_filter, HI2, HU2, Forall_forall. split; [|tauto].
    intros H. split; [done|]. destruct c as [|S c]; [done|]. exists S. split; [apply HcF; left|apply H; left]. }
  rewrite (Permutation_length Hp), length_zsumf, zsumf_filter. done.
Qed.
Lemma incl_excl (F : list (list name)) (U : list name) (f : list (list name) -> Z) : F <> [] -> lists_exactly U (fun x => exists S, S ∈ F /\ x ∈ S) ->
  (forall c, sublist c F -> c <> [] -> f c = zsumf (fun x => inall x c) U) ->
  Z.of_nat (length U) = (zsumf f (combs 1 F) - zsumf (fun i => sgn i * zsumf f (combs i F))%Z (seq 2 (length F - 1)))%Z.
Proof.
  intros HF [HU1 HU2] Hf.
  assert (zsumf (fun x => signed x (length F) F) U = 0)%Z as Hz.
  { apply zsumf_zero. intros x Hx. rewrite signed_exact by done. rewrite decide_True; [done|]. apply HU2 in Hx as (S & HS & Hx). apply Exists_exists. eauto. }
  unfold signed in Hz. rewrite zsumf_swap in Hz.
  destruct F as [|S F]; [done|]. cbn [length] in *. replace (Datatypes.S (length F) - 1) with (length F) by lia.
  change (seq 0 (Datatypes.S (Datatypes.S (length F)))) with (0 :: 1 :: seq 2 (length F)) in Hz.
  assert (forall i, i ∈ seq 1 (Datatypes.S (length F)) -> zsumf (fun x => sgn i * zsumf (inall x) (combs i (S :: F)))%Z U = (sgn i * zsumf f (combs i (S :: F)))%Z) as Hi.
  { intros i Hi. rewrite zsumf_mul_l. f_equal. rewrite zsumf_swap. apply zsumf_ext. intros c [Hc1 Hc2]%elem_of_combs. symmetry. apply Hf; [done|].
    intros ->. apply elem_of_seq in Hi. simpl in Hc2. lia. }
  rewrite !zsumf_cons in Hz. rewrite (Hi 1) in Hz by (apply elem_of_seq; lia).
  rewrite (zsumf_ext _ (fun i => sgn i * zsumf f (combs i (S :: F)))%Z (seq 2 (length F))) in Hz.
  2:{ intros i Hi'. apply Hi. apply elem_of_seq in Hi'. apply elem_of_seq. lia. }
  rewrite (zsumf_ext (fun x => sgn 0 * zsumf (inall x) (combs 0 (S :: F)))%Z (fun _ => 1%Z)) in Hz by done.
  rewrite <- length_zsumf in Hz. change (sgn 1) with (-1)%Z in Hz. lia.
Qed.
Lemma combs_1 {A} (l : list A) : combs 1 l = (fun x => [x]) <$> l.
Proof. induction l as [|x l IH]; [done|]. rewrite combs_S_cons, combs_0, IH. done. Qed.

(** ** the loop of [calc_lengths] *)
Lemma combs_length {A B} k (l : list A) (m : list B) : length l = length m -> length (combs k l) = length (combs k m).
Proof.
  revert k m. induction l as [|x l IH]; intros k m H; destruct m as [|y m]; try done; (destruct k as [|k]; [by rewrite !combs_0|]); [done|].
  rewrite !combs_S_cons, !app_length, !fmap_length. injection H as H. by rewrite (IH k m), (IH (S k) m).
Qed.
Lemma calc_inner inters ii {A} (cs : list A) (zs : list Z) pre post s : inters = pre ++ (Some <$> zs) ++ post -> length cs = length zs ->
  rfold (fun s _ => calc_step inters ii s) (s, length pre) cs = Ok ((s - sgn ii * zsum zs)%Z, length pre + length zs).
Proof.
  revert cs pre s. induction zs as [|z zs IH]; intros cs pre s He Hl; destruct cs as [|c cs]; try done.
  - cbn [rfold]. rewrite zsum_nil. do 2 f_equal; simpl; lia.
  - assert (inters !! length pre = Some (Some z)) as Hlk by (rewrite He, lookup_app_r, Nat.sub_diag by lia; done).
    cbn [rfold]. unfold calc_step at 1. cbn [fst snd]. rewrite Hlk.
    replace (S (length pre)) with (length (pre ++ [Some z])) by (rewrite app_length; simpl; lia).
    rewrite (IH cs (pre ++ [Some z])); [|rewrite He, fmap_cons; by rewrite <- app_assoc|by injection Hl].
    rewrite zsum_cons, app_length. cbn [length]. do 2 f_equal; [|lia]. unfold sgn. destruct (decide (ii mod 2 = 0)); lia.
Qed.
Lemma calc_outer {A} (l : list A) inters (g : nat -> list Z) ks pre s :
  (forall ii, length (g ii) = length (combs ii l)) -> inters = pre ++ (Some <$> (ks ≫= g)) ->
  exists j, rfold (fun s ii => rfold (fun s _ => calc_step inters ii s) s (combs ii l)) (s, length pre) ks =
    Ok ((s - zsumf (fun ii => sgn ii * zsum (g ii)) ks)%Z, j).
Proof.
  intros Hg. revert pre s. induction ks as [|ii ks IH]; intros pre s He.
  - exists (length pre). cbn [rfold]. rewrite zsumf_nil. do 2 f_equal. lia.
  - cbn [rfold]. rewrite bind_cons, fmap_app in He. rewrite (calc_inner inters ii (combs ii l) (g ii) pre (Some <$> (ks ≫= g))); [|done|by rewrite Hg].
    destruct (IH (pre ++ (Some <$> g ii)) (s - sgn ii * zsum (g ii))%Z) as [j Hj]; [by rewrite <- app_assoc|].
    rewrite app_length, fmap_length in Hj. exists j. rewrite Hj. rewrite zsumf_cons. do 2 f_equal. lia.
Qed.
Lemma all_nonneg_some l : Forall (fun o => exists z, o = Some z /\ 0 <= z)%Z l -> all_nonneg l = Ok true.
Proof. induction 1 as [|o l (z & -> & Hz) H IH]; [done|]. cbn [all_nonneg]. by rewrite decide_True. Qed.
(** The number of role sets of size at least two. *)
Definition ncombs {A} (N : nat) (l : list A) : Z := zsumf (fun i => Z.of_nat (length (combs i l))) (seq 0 (S N)).
Lemma ncombs_extra {A} (l : list A) N : length l <= N -> ncombs (S N) l = ncombs N l.
Proof. intros H. unfold ncombs. rewrite (seq_S_last 0 (S N)), zsumf_app, zsumf_cons, zsumf_nil. rewrite combs_gt by lia. simpl length. lia. Qed.
Lemma ncombs_pow {A} (l : list A) N : length l <= N -> ncombs N l = (2 ^ Z.of_nat (length l))%Z.
Proof.
  revert N. induction l as [|x l IH]; intros N HN.
  - change (2 ^ Z.of_nat (length [])) % Z with 1%Z. induction N as [|N IHN]; [done|]. rewrite ncombs_extra by (simpl; lia). apply IHN. simpl. lia.
  - destruct N as [|N]; [simpl in HN; lia|]. simpl in HN. cbn [length]. rewrite Nat2Z.inj_succ, Z.pow_succ_r by lia.
    pose proof (IH N ltac:(lia)) as E1. pose proof (IH (S N) ltac:(lia)) as E2. unfold ncombs in *.
    change (seq 0 (S (S N))) with (0 :: seq 1 (S N)) in *. rewrite zsumf_cons, combs_0 in *. rewrite <- (fmap_S_seq 0 (S N)), zsumf_fmap in *.
    rewrite (zsumf_ext _ (fun i => Z.of_nat (length (combs i l)) + Z.of_nat (length (combs (S i) l)))%Z).
    2:{ intros i _. rewrite combs_S_cons, app_length, fmap_length. lia. }
    rewrite zsumf_add. lia.
Qed.
Lemma length_bind_z {A B} (f : A -> list B) (l : list A) : Z.of_nat (length (l ≫= f)) = zsumf (fun x => Z.of_nat (length (f x))) l.
Proof. induction l as [|x l IH]; [done|]. rewrite bind_cons, app_length, zsumf_cons. lia. Qed.
Lemma role_sets_length {A} (l : list A) : l <> [] -> length (role_sets l) = 2 ^ length l - length l - 1.
Proof.
  intros Hl. pose proof (ncombs_pow l (length l) (le_n _)) as H. unfold ncombs in H.
  assert (Z.of_nat (length (role_sets l)) = 2 ^ Z.of_nat (length l) - Z.of_nat (length l) - 1)%Z as H1.
  { unfold role_sets. rewrite length_bind_z. destruct l as [|x l]; [done|].
    cbn [length] in *. replace (S (length l) - 1) with (length l) by lia.
    change (seq 0 (S (S (length l)))) with (0 :: 1 :: seq 2 (length l)) in H. rewrite !zsumf_cons, combs_0, combs_1, fmap_length in H. cbn [length] in *. lia. }
  assert (Z.of_nat (2 ^ length l) = 2 ^ Z.of_nat (length l))%Z as H2 by (rewrite Nat2Z.inj_pow; done). lia.
Qed.
Lemma zsum_zsumf (l : list Z) : zsum l = zsumf (fun x => x) l.
Proof. unfold zsumf. by rewrite list_fmap_id. Qed.
Lemma Forall2_fmap_r {A B} (P : A -> B -> Prop) l m : Forall2 P l m -> forall (f : A -> B), (forall a b, a ∈ l -> P a b -> b = f a) -> m = f <$> l.
Proof.
  induction 1 as [|a b l m H1 H2 IH]; intros f Hf; [done|]. rewrite fmap_cons. f_equal; [apply Hf; [left|done]|].
  apply IH. intros a' b' Ha'. apply Hf. by right.
Qed.
Lemma elem_of_role_sets {A} (l c : list A) : c ∈ role_sets l <-> sublist c l /\ 2 <= length c.
Proof.
  unfold role_sets. rewrite elem_of_list_bind. split.
  - intros (i & [H1 H2]%elem_of_combs & Hi%elem_of_seq). split; [done|lia].
  - intros [H1 H2]. exists (length c). split; [by apply elem_of_combs|]. apply elem_of_seq. apply sublist_length in H1. lia.
Qed.
Lemma NoDup_role_sets {A} (l : list A) : NoDup l -> NoDup (role_sets l).
Proof.
  intros Hl. unfold role_sets. apply NoDup_bind; [apply NoDup_seq| |].
  - intros i _. by apply NoDup_combs.
  - intros i j c _ _ [_ H1]%elem_of_combs [_ H2]%elem_of_combs. congruence.
Qed.

(** Sizes and intersection sizes of a family of sets, in the order of the code. *)
Lemma has_size_fun P z z' : has_size P z -> has_size P z' -> z = z'.
Proof.
  intros (L & [H1 H2] & ->) (L' & [H1' H2'] & ->). f_equal. apply Permutation_length. apply NoDup_Permutation; [done..|]. intros x. by rewrite H2, H2'.
Qed.

Lemma calc_lengths_spec (F : list (list name)) sizes inters nn : F <> [] ->
  Forall2 (fun S z => has_size (fun x => x ∈ S) z) F sizes -> Forall (fun S => S <> []) F ->
  Forall2 (fun c o => exists z, o = Some z /\ has_size (fun x => forall S, S ∈ c -> x ∈ S) z) (role_sets F) inters ->
  has_size (fun x => exists S, S ∈ F /\ x ∈ S) nn ->
  calc_lengths sizes inters = Ok (nn, Z.of_nat (length F)).
Proof.
  intros HF HS Hne HI (U & HU & ->).
  set (f := fun c => zsumf (fun x => inall x c) U).
  assert (forall c z, c <> [] -> (forall S, S ∈ c -> S ∈ F) -> has_size (fun x => forall S, S ∈ c -> x ∈ S) z -> z = f c) as Hf.
  { intros c z Hc Hc2 (I & HI' & ->). by apply (length_inall F). }
  assert (sizes = (fun S => f [S]) <$> F) as Hsz.
  { apply (Forall2_fmap_r _ _ _ HS). intros S z Hin Hz. apply Hf; [done| |].
    - intros T ->%elem_of_list_singleton. done.
    - destruct Hz as (L & [H1 H2] & ->). exists L. split; [|done]. split; [done|]. intros x. rewrite H2. split; [intros H T ->%elem_of_list_singleton; done|]. intros H. apply H. by left. }
  assert (inters = (fun c => Some (f c)) <$> role_sets F) as Hin.
  { apply (Forall2_fmap_r _ _ _ HI). intros c o [Hc1 Hc2]%elem_of_role_sets (z & -> & Hz). f_equal. apply Hf; [by intros ->; simpl in Hc2; lia| |done].
    intros S HSc. by eapply sublist_elem. }
  assert (length sizes = length F) as Hls by (rewrite Hsz; apply fmap_length).
  assert (length inters = 2 ^ length sizes - length sizes - 1) as Hli.
  { rewrite Hls, <- role_sets_length by done. rewrite Hin. apply fmap_length. }
  assert (forall c, 0 <= f c)%Z as Hf0.
  { intros c. apply zsumf_nonneg. intros x _. unfold inall. case_decide; lia. }
  assert (forallb (fun i => bool_decide (1 <= i)%Z) sizes = true) as Hpos.
  { apply forallb_forall. intros z Hz%elem_of_list_In. apply bool_decide_eq_true. clear - HS Hne Hz. induction HS as [|S z' F sizes (L & [H1 H2] & ->) H IH]; [by apply elem_of_nil in Hz|].
    apply Forall_cons in Hne as [Hne1 Hne]. apply elem_of_cons in Hz as [->|Hz]; [|by apply IH]. destruct S as [|x S]; [done|]. assert (x ∈ L) as Hx by (apply H2; left).
    destruct L; [by apply elem_of_nil in Hx|]. simpl. lia. }
  assert (all_nonneg inters = Ok true) as Han.
  { apply all_nonneg_some. rewrite Hin. apply Forall_fmap, Forall_forall. intros c _. simpl. eauto. }
  assert (Z.of_nat (length U) = zsum sizes - zsumf (fun i => sgn i * zsumf f (combs i F)) (seq 2 (length F - 1)))%Z as Hie.
  { rewrite (incl_excl F U f HF HU); [|intros c Hc Hne'; done]. f_equal. rewrite combs_1, zsumf_fmap, Hsz. done. }
  unfold calc_lengths. rewrite Hpos, Han. destruct sizes as [|s0 sizes']; [destruct F; [done|simpl in Hls; lia]|].
  rewrite decide_True by done. cbn [rbind].
  destruct inters as [|i0 inters'] eqn:Ei.
  - assert (length F = 1) as HF1.
    { rewrite Hls in Hli. simpl in Hli. symmetry in Hli. destruct F as [|? [|? F]]; [done|done|]. exfalso.
      assert (0 < length (role_sets (l :: l0 :: F))) as Hpos'; [|rewrite role_sets_length in Hpos' by done; lia].
      assert ([l; l0] ∈ role_sets (l :: l0 :: F)) as Hel. { apply elem_of_role_sets. split; [apply sublist_skip, sublist_skip, sublist_nil_l|simpl; lia]. }
      destruct (role_sets (l :: l0 :: F)); [by apply elem_of_nil in Hel|simpl; lia]. }
    rewrite HF1. rewrite HF1 in Hie. simpl seq in Hie. rewrite zsumf_nil in Hie. rewrite HF1 in Hls. destruct sizes'; [|simpl in Hls; lia].
    rewrite zsum_cons, zsum_nil in Hie. do 2 f_equal. lia.
  - rewrite <- Ei in *. destruct (calc_outer (s0 :: sizes') inters (fun ii => f <$> combs ii F) (seq 2 (length (s0 :: sizes') - 1)) [] (zsum (s0 :: sizes'))) as [j Hj].
    + intros ii. rewrite fmap_length. by apply combs_length.
    + rewrite Hin, Hls. unfold role_sets. simpl app. clear. induction (seq 2 (length F - 1)) as [|k ks IH]; [done|]. rewrite !bind_cons, !fmap_app, IH. by rewrite <- list_fmap_compose.
    + change (length []) with 0 in Hj. rewrite Hj. cbn [rbind fst]. rewrite Hls. do 2 f_equal. rewrite Hie. f_equal.
Qed.
