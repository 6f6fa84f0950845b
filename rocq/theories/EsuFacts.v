(** * The ESU enumeration, one starting node-layer. *)
From stdpp Require Import prelude strings.
From Coq Require Import QArith.
From Verif Require Import Base Net NetSpec Samp SampSpec SampFacts.
Local Open Scope nat_scope.

(** ** numbering *)
Lemma num_lookup (nls : list nl) i a : NoDup nls -> num nls a = Some i <-> nls !! i = Some a.
Proof.
  intros Hn. unfold num. split.
  - intros H. destruct (list_find (fun b => b = a) nls) as [[j y]|] eqn:E; [|done]. injection H as <-. apply list_find_Some in E as (H1 & -> & _). done.
  - intros H. destruct (list_find (fun b => b = a) nls) as [[j y]|] eqn:E.
    + apply list_find_Some in E as (H1 & -> & _). simpl. f_equal. by eapply NoDup_lookup.
    + apply list_find_None in E. rewrite Forall_forall in E. exfalso. apply (E a); [by eapply elem_of_list_lookup_2|done].
Qed.
Lemma num_split (pre post : list nl) v a : NoDup (pre ++ v :: post) ->
  (earlier (pre ++ v :: post) v a = true <-> a ∈ pre) /\ (later (pre ++ v :: post) v a = true <-> a ∈ post).
Proof.
  intros Hn. set (nls := pre ++ v :: post) in *.
  assert (num nls v = Some (length pre)) as Hv. { apply num_lookup; [done|]. unfold nls. rewrite lookup_app_r, Nat.sub_diag by lia. done. }
  assert (forall i, num nls a = Some i -> nls !! i = Some a) as H1 by (intros i; by apply num_lookup).
  assert (forall i, nls !! i = Some a -> num nls a = Some i) as H2 by (intros i; by apply num_lookup).
  unfold earlier, later. rewrite Hv. split; split.
  - destruct (num nls a) as [i|]; [|done]. intros Hi%bool_decide_eq_true. specialize (H1 i eq_refl). unfold nls in H1. rewrite lookup_app_l in H1 by done. by eapply elem_of_list_lookup_2.
  - intros [i Hi]%elem_of_list_lookup. rewrite (H2 i) by (unfold nls; by rewrite lookup_app_l by (by eapply lookup_lt_Some)). apply bool_decide_eq_true. by eapply lookup_lt_Some.
  - destruct (num nls a) as [i|]; [|done]. intros Hi%bool_decide_eq_true. specialize (H1 i eq_refl). unfold nls in H1. rewrite lookup_app_r in H1 by lia.
    destruct (i - length pre) as [|j] eqn:Ej; [lia|]. simpl in H1. by eapply elem_of_list_lookup_2.
  - intros [i Hi]%elem_of_list_lookup. rewrite (H2 (length pre + S i)).
    + apply bool_decide_eq_true. lia.
    + unfold nls. rewrite lookup_app_r by lia. by replace (length pre + S i - length pre) with (S i) by lia.
Qed.

(** ** sets built by a fold *)
Definition set_step (c1 c2 : nl -> bool) (s : list name * list name) (b : nl) : list name * list name :=
  (if c1 b then sadd (node_of b) (s.1) else s.1, if c2 b then sadd (lay1 b) (s.2) else s.2).
Lemma fold_sets c1 c2 bs s : NoDup (s.1) -> NoDup (s.2) ->
  NoDup (foldl (set_step c1 c2) s bs).1 /\ NoDup (foldl (set_step c1 c2) s bs).2 /\
  (forall x, x ∈ (foldl (set_step c1 c2) s bs).1 <-> x ∈ s.1 \/ exists b, b ∈ bs /\ c1 b = true /\ x = node_of b) /\
  (forall l, l ∈ (foldl (set_step c1 c2) s bs).2 <-> l ∈ s.2 \/ exists b, b ∈ bs /\ c2 b = true /\ l = lay1 b).
Proof.
  revert s. induction bs as [|b bs IH]; intros s H1 H2; cbn [foldl].
  - do 2 (split; [done|]). split; intros x; (split; [by left|]); intros [?|(b & ?%elem_of_nil & _)]; done.
  - destruct (IH (set_step c1 c2 s b)) as (I1 & I2 & I3 & I4).
    + simpl. destruct (c1 b); [by apply NoDup_sadd|done].
    + simpl. destruct (c2 b); [by apply NoDup_sadd|done].
    + do 2 (split; [done|]). split; intros x.
      * rewrite I3. cbn [set_step fst]. destruct (c1 b) eqn:E; [rewrite elem_of_sadd|]; split.
        { intros [[->|?]|(b' & ? & ? & ->)]; [right; exists b|by left|right; exists b']; (split; [set_solver|done]). }
        { intros [?|(b' & [->|?]%elem_of_cons & ? & ->)]; [by left; right|by left; left|right; by exists b']. }
        { intros [?|(b' & ? & ? & ->)]; [by left|right; exists b']. split; [by right|done]. }
        { intros [?|(b' & [->|?]%elem_of_cons & ? & ->)]; [by left|congruence|right; by exists b']. }
      * rewrite I4. cbn [set_step snd]. destruct (c2 b) eqn:E; [rewrite elem_of_sadd|]; split.
        { intros [[->|?]|(b' & ? & ? & ->)]; [right; exists b|by left|right; exists b']; (split; [set_solver|done]). }
        { intros [?|(b' & [->|?]%elem_of_cons & ? & ->)]; [by left; right|by left; left|right; by exists b']. }
        { intros [?|(b' & ? & ? & ->)]; [by left|right; exists b']. split; [by right|done]. }
        { intros [?|(b' & [->|?]%elem_of_cons & ? & ->)]; [by left|congruence|right; by exists b']. }
Qed.
Lemma foldl_ext' {A B} (f g : A -> B -> A) s l : (forall a b, f a b = g a b) -> foldl f s l = foldl g s l.
Proof. intros H. revert s. induction l as [|b l IH]; intros s; [done|]. cbn [foldl]. by rewrite H, IH. Qed.
Lemma elem_cart2 (A B : list name) (a : nl) : a ∈ cart [A; B] <-> exists x l, a = [x; l] /\ x ∈ A /\ l ∈ B.
Proof.
  rewrite elem_of_cart. split.
  - intros H. apply Forall2_cons_inv_r in H as (x & t & Hx & Ht & ->). apply Forall2_cons_inv_r in Ht as (l & t' & Hl & Ht' & ->). apply Forall2_nil_inv_r in Ht' as ->. eauto.
  - intros (x & l & -> & Hx & Hl). by repeat constructor.
Qed.

(** ** extending one starting node-layer *)
Section root.
Context (cn : mlnet) (pre post : list nl) (sn sl : name).
Notation v := [sn; sl].
Notation nls := (pre ++ v :: post).
Context (Hnd : NoDup nls) (Hlen : forall a, a ∈ nls -> length a = 2).
Definition lk (a b : nl) : Prop := b ∈ iter_total cn a None.
Context (Hlk : forall a b, lk a b -> a ∈ nls /\ b ∈ nls).

(** The nodes and layers next to the selection. *)
Definition NbN (A B : list name) (x : name) : Prop :=
  x ∉ A /\ exists a b, a ∈ cart [A; B] /\ a ∈ nls /\ lk a b /\ b ∈ post /\ node_of b = x.
Definition NbL (A B : list name) (l : name) : Prop :=
  l ∉ B /\ exists a b, a ∈ cart [A; B] /\ a ∈ nls /\ lk a b /\ b ∈ post /\ lay1 b = l.

Lemma later_post a : later nls v a = true <-> a ∈ post.
Proof. by apply num_split. Qed.
Lemma earlier_pre a : earlier nls v a = true <-> a ∈ pre.
Proof. by apply num_split. Qed.
Lemma later_dec a : later nls v a = bool_decide (a ∈ post).
Proof. apply eq_bool_prop_intro. rewrite bool_decide_spec, Is_true_true. apply later_post. Qed.

Lemma elem_numbered_nbrs (l : list nl) b : b ∈ (numbered nls l ≫= fun a => iter_total cn a None) <-> exists a, a ∈ l /\ a ∈ nls /\ lk a b.
Proof. unfold numbered. rewrite elem_of_list_bind. setoid_rewrite elem_of_list_filter. unfold lk. naive_solver. Qed.

Lemma nbh_spec A B : (forall x, x ∈ (nbh cn nls v A B).1 <-> NbN A B x) /\ (forall l, l ∈ (nbh cn nls v A B).2 <-> NbL A B l).
Proof.
  unfold nbh. set (bs := numbered nls _ ≫= _).
  rewrite (foldl_ext' _ (set_step (fun b => later nls v b && negb (bool_decide (node_of b ∈ A))) (fun b => later nls v b && negb (bool_decide (lay1 b ∈ B))))).
  2:{ intros s b. unfold nbh_step, set_step. destruct (later nls v b); [|by destruct s]. by do 2 case_bool_decide. }
  destruct (fold_sets (fun b => later nls v b && negb (bool_decide (node_of b ∈ A))) (fun b => later nls v b && negb (bool_decide (lay1 b ∈ B))) bs ([], [])) as (_ & _ & H1 & H2); [constructor..|].
  split; intros x.
  - rewrite H1. unfold NbN. split.
    + intros [?%elem_of_nil|(b & Hb & [Hb1%later_post Hb2%negb_true_iff%bool_decide_eq_false]%andb_true_iff & ->)]; [done|]. split; [done|].
      apply elem_numbered_nbrs in Hb as (a & Ha1 & Ha2 & Hl). eauto 10.
    + intros (Hx & a & b & Ha1 & Ha2 & Hl & Hb & <-). right. exists b. split; [apply elem_numbered_nbrs; eauto|]. split; [|done].
      apply andb_true_iff. split; [by apply later_post|]. by apply negb_true_iff, bool_decide_eq_false.
  - rewrite H2. unfold NbL. split.
    + intros [?%elem_of_nil|(b & Hb & [Hb1%later_post Hb2%negb_true_iff%bool_decide_eq_false]%andb_true_iff & ->)]; [done|]. split; [done|].
      apply elem_numbered_nbrs in Hb as (a & Ha1 & Ha2 & Hl). eauto 10.
    + intros (Hx & a & b & Ha1 & Ha2 & Hl & Hb & <-). right. exists b. split; [apply elem_numbered_nbrs; eauto|]. split; [|done].
      apply andb_true_iff. split; [by apply later_post|]. by apply negb_true_iff, bool_decide_eq_false.
Qed.
Lemma existsb_earlier l : existsb (earlier nls v) l = false <-> forall a, a ∈ l -> a ∉ pre.
Proof.
  split.
  - intros H a Ha Hp. apply earlier_pre in Hp. assert (existsb (earlier nls v) l = true); [|congruence]. apply existsb_exists. exists a. split; [by apply elem_of_list_In|done].
  - intros H. destruct (existsb (earlier nls v) l) eqn:E; [|done]. apply existsb_exists in E as (a & Ha%elem_of_list_In & Hp%earlier_pre). by apply H in Ha.
Qed.
Lemma next_ext_spec A B o s added : NoDup (s.1) -> NoDup (s.2) -> let r := next_ext cn nls v A B o s added in
  NoDup (r.1) /\ NoDup (r.2) /\
  (forall x, x ∈ r.1 <-> x ∈ s.1 \/ (x ∉ o.1 /\ x ∉ A /\ (forall l, l ∈ B -> [x; l] ∉ pre) /\ exists a b, a ∈ added /\ a ∈ nls /\ lk a b /\ b ∈ post /\ node_of b = x)) /\
  (forall l, l ∈ r.2 <-> l ∈ s.2 \/ (l ∉ o.2 /\ l ∉ B /\ (forall x, x ∈ A -> [x; l] ∉ pre) /\ exists a b, a ∈ added /\ a ∈ nls /\ lk a b /\ b ∈ post /\ lay1 b = l)).
Proof.
  intros Hs1 Hs2 r. unfold r, next_ext. set (bs := numbered nls _ ≫= _).
  set (c1 := fun b => later nls v b && negb (bool_decide (node_of b ∈ o.1) || bool_decide (node_of b ∈ A) || existsb (earlier nls v) (cart [[node_of b]; B]))).
  set (c2 := fun b => later nls v b && negb (bool_decide (lay1 b ∈ o.2) || bool_decide (lay1 b ∈ B) || existsb (earlier nls v) (cart [A; [lay1 b]]))).
  rewrite (foldl_ext' _ (set_step c1 c2)).
  2:{ intros s' b. unfold ext_step, set_step, c1, c2. destruct (later nls v b); [|by destruct s']. cbn [andb].
      destruct (bool_decide (node_of b ∈ o.1) || bool_decide (node_of b ∈ A) || existsb (earlier nls v) (cart [[node_of b]; B]));
      destruct (bool_decide (lay1 b ∈ o.2) || bool_decide (lay1 b ∈ B) || existsb (earlier nls v) (cart [A; [lay1 b]])); done. }
  destruct (fold_sets c1 c2 bs s Hs1 Hs2) as (H1 & H2 & H3 & H4). split; [done|]. split; [done|].
  assert (forall b, c1 b = true <-> b ∈ post /\ node_of b ∉ o.1 /\ node_of b ∉ A /\ (forall l, l ∈ B -> [node_of b; l] ∉ pre)) as Hc1.
  { intros b. unfold c1. rewrite andb_true_iff, negb_true_iff, !orb_false_iff, later_post, !bool_decide_eq_false, existsb_earlier.
    assert ((forall a, a ∈ cart [[node_of b]; B] -> a ∉ pre) <-> (forall l, l ∈ B -> [node_of b; l] ∉ pre)) as ->; [|tauto].
    split; [intros H l Hl; apply H, elem_cart2; exists (node_of b), l; split; [done|]; split; [by left|done]|].
    intros H a (x & l & -> & ->%elem_of_list_singleton & Hl)%elem_cart2. auto. }
  assert (forall b, c2 b = true <-> b ∈ post /\ lay1 b ∉ o.2 /\ lay1 b ∉ B /\ (forall x, x ∈ A -> [x; lay1 b] ∉ pre)) as Hc2.
  { intros b. unfold c2. rewrite andb_true_iff, negb_true_iff, !orb_false_iff, later_post, !bool_decide_eq_false, existsb_earlier.
    assert ((forall a, a ∈ cart [A; [lay1 b]] -> a ∉ pre) <-> (forall x, x ∈ A -> [x; lay1 b] ∉ pre)) as ->; [|tauto].
    split; [intros H x Hx; apply H, elem_cart2; exists x, (lay1 b); split; [done|]; split; [done|by left]|].
    intros H a (x & l & -> & Hx & ->%elem_of_list_singleton)%elem_cart2. auto. }
  split; intros x.
  - rewrite H3. split.
    + intros [?|(b & Hb & Hb2%Hc1 & ->)]; [by left|right]. apply elem_numbered_nbrs in Hb as (a & Ha1 & Ha2 & Hl). destruct Hb2 as (? & ? & ? & ?). eauto 12.
    + intros [?|(Hx1 & Hx2 & Hx3 & a & b & Ha1 & Ha2 & Hl & Hb & <-)]; [by left|right]. exists b. split; [apply elem_numbered_nbrs; eauto|]. split; [|done]. by apply Hc1.
  - rewrite H4. split.
    + intros [?|(b & Hb & Hb2%Hc2 & ->)]; [by left|right]. apply elem_numbered_nbrs in Hb as (a & Ha1 & Ha2 & Hl). destruct Hb2 as (? & ? & ? & ?). eauto 12.
    + intros [?|(Hx1 & Hx2 & Hx3 & a & b & Ha1 & Ha2 & Hl & Hb & <-)]; [by left|right]. exists b. split; [apply elem_numbered_nbrs; eauto|]. split; [|done]. by apply Hc2.
Qed.
Lemma root_ext_spec : let r := root_ext cn nls v in NoDup (r.1) /\ NoDup (r.2) /\
  (forall x, x ∈ r.1 <-> NbN [sn] [sl] x /\ [x; sl] ∉ pre) /\ (forall l, l ∈ r.2 <-> NbL [sn] [sl] l /\ [sn; l] ∉ pre).
Proof.
  intros r. unfold r, root_ext.
  set (c1 := fun b => later nls v b && (negb (bool_decide (node_of b = sn)) && negb (earlier nls v [node_of b; sl]))).
  set (c2 := fun b => later nls v b && (negb (bool_decide (lay1 b = sl)) && negb (earlier nls v [sn; lay1 b]))).
  rewrite (foldl_ext' _ (set_step c1 c2)).
  2:{ intros s' b. unfold root_step, set_step, c1, c2. destruct (later nls v b); [|by destruct s']. done. }
  destruct (fold_sets c1 c2 (iter_total cn v None) ([], [])) as (H1 & H2 & H3 & H4); [constructor..|]. split; [done|]. split; [done|].
  assert (forall a, earlier nls v a = false <-> a ∉ pre) as Hea.
  { intros a. rewrite <- earlier_pre. by destruct (earlier nls v a). }
  assert (v ∈ nls) as Hv by (apply elem_of_app; right; left).
  split; intros x.
  - rewrite H3. unfold c1, NbN. split.
    + intros [?%elem_of_nil|(b & Hb & [Hb1%later_post [Hb2%negb_true_iff%bool_decide_eq_false Hb3%negb_true_iff%Hea]%andb_true_iff]%andb_true_iff & ->)]; [done|].
      split; [|done]. split; [by intros ?%elem_of_list_singleton|]. exists v, b. split; [|done]. apply elem_cart2. exists sn, sl. split; [done|]. split; by left.
    + intros [(Hx & a & b & (y & l & -> & ->%elem_of_list_singleton & ->%elem_of_list_singleton)%elem_cart2 & _ & Hl & Hb & <-) Hp]. right. exists b. split; [done|]. split; [|done].
      rewrite !andb_true_iff, !negb_true_iff, bool_decide_eq_false, Hea, later_post. split; [done|]. split; [|done]. intros Heq. apply Hx. apply elem_of_list_singleton. exact Heq.
  - rewrite H4. unfold c2, NbL. split.
    + intros [?%elem_of_nil|(b & Hb & [Hb1%later_post [Hb2%negb_true_iff%bool_decide_eq_false Hb3%negb_true_iff%Hea]%andb_true_iff]%andb_true_iff & ->)]; [done|].
      split; [|done]. split; [by intros ?%elem_of_list_singleton|]. exists v, b. split; [|done]. apply elem_cart2. exists sn, sl. split; [done|]. split; by left.
    + intros [(Hx & a & b & (y & l & -> & ->%elem_of_list_singleton & ->%elem_of_list_singleton)%elem_cart2 & _ & Hl & Hb & <-) Hp]. right. exists b. split; [done|]. split; [|done].
      rewrite !andb_true_iff, !negb_true_iff, bool_decide_eq_false, Hea, later_post. split; [done|]. split; [|done]. intros Heq. apply Hx. apply elem_of_list_singleton. exact Heq.
Qed.

(** Which names may join: facts about the numbering (see [safe_layer_major] and
    [safe_node_major] below for the two orders of the list). *)
Context (CN CL : name -> Prop).
Context (HCN0 : CN sn) (HCL0 : CL sl).
Context (HCN : forall x, [x; sl] ∉ pre -> (exists l, [x; l] ∈ post) -> CN x).
Context (HCL : forall l, [sn; l] ∉ pre -> (exists x, [x; l] ∈ post) -> CL l).
Context (chk : checker) (rn rl : Z) (p : list Q).

Definition inv (A B En El : list name) : Prop :=
  (NoDup A /\ NoDup B /\ NoDup En /\ NoDup El) /\
  ((forall x, x ∈ En -> NbN A B x) /\ (forall l, l ∈ El -> NbL A B l)) /\
  ((forall x, x ∈ A \/ x ∈ En -> CN x) /\ (forall l, l ∈ B \/ l ∈ El -> CL l)) /\ sn ∈ A /\ sl ∈ B.
(** [X], [Y] may still be reached from the state. *)
Definition reach (A B En El X Y : list name) : Prop :=
  (forall x, x ∈ X -> x ∈ A \/ x ∈ En \/ ~ NbN A B x) /\ (forall l, l ∈ Y -> l ∈ B \/ l ∈ El \/ ~ NbL A B l).
Definition good_res (A B En El : list name) (r : list name * list name) : Prop :=
  (NoDup (r.1) /\ NoDup (r.2) /\ Z.of_nat (length (r.1)) = rn /\ Z.of_nat (length (r.2)) = rl /\ chk cn (r.1) (r.2) = Ok true) /\
  (A ⊆ r.1 /\ B ⊆ r.2 /\ (forall x, x ∈ r.1 -> CN x) /\ (forall l, l ∈ r.2 -> CL l)) /\ reach A B En El (r.1) (r.2).
(** A selection that is to be found. *)
Definition target (X Y : list name) : Prop :=
  (NoDup X /\ NoDup Y /\ Z.of_nat (length X) = rn /\ Z.of_nat (length Y) = rl /\
   forall A B, A ≡ₚ X -> B ≡ₚ Y -> chk cn A B = Ok true) /\
  (forall x l, x ∈ X -> l ∈ Y -> [x; l] ∉ pre) /\
  (forall A B, A ⊆ X -> B ⊆ Y -> sn ∈ A -> sl ∈ B -> (exists x, x ∈ X /\ x ∉ A) \/ (exists l, l ∈ Y /\ l ∉ B) ->
     exists a b, a ∈ cart [A; B] /\ a ∈ nls /\ lk a b /\ b ∈ cart [X; Y] /\ b ∉ cart [A; B]).
Definition passes (orc : oracle) : Prop := forall iq pr, iq ∈ orc -> pr ∈ p -> qlt (iq.2) pr = true.
Definition found_all (A B En El : list name) (new : found) : Prop :=
  forall X Y, target X Y -> A ⊆ X -> B ⊆ Y -> reach A B En El X Y -> exists r, r ∈ new /\ same_sel r (X, Y).
Definition post_ok (A B En El : list name) (rs : found) (orc : oracle) (out : res (found * oracle)) : Prop :=
  match out with
  | Err e => e = OutOfFuel
  | Ok (rs', orc') => (exists used, orc = used ++ orc') /\ exists new, rs' = rs ++ new /\
      (forall r, r ∈ new -> good_res A B En El r) /\ sels_distinct new /\ (passes orc -> found_all A B En El new)
  end.

Lemma NbN_mono A B A' B' x : A ⊆ A' -> B ⊆ B' -> x ∉ A' -> NbN A B x -> NbN A' B' x.
Proof.
  intros HA HB Hx (_ & a & b & (y & l & -> & Hy & Hl)%elem_cart2 & H). split; [done|]. exists [y; l], b. split; [|done].
  apply elem_cart2. exists y, l. auto.
Qed.
Lemma NbL_mono A B A' B' x : A ⊆ A' -> B ⊆ B' -> x ∉ B' -> NbL A B x -> NbL A' B' x.
Proof.
  intros HA HB Hx (_ & a & b & (y & l & -> & Hy & Hl)%elem_cart2 & H). split; [done|]. exists [y; l], b. split; [|done].
  apply elem_cart2. exists y, l. auto.
Qed.
Lemma post2 b : b ∈ post -> b = [node_of b; lay1 b].
Proof.
  intros Hb. assert (length b = 2) as H2 by (apply Hlen, elem_of_app; right; by right).
  destruct b as [|x [|l [|]]]; done.
Qed.
Lemma sels_distinct_nil : sels_distinct [].
Proof. intros i j r r' H. rewrite lookup_nil in H. done. Qed.
Lemma sels_distinct_app (l1 l2 : found) : sels_distinct l1 -> sels_distinct l2 ->
  (forall r r', r ∈ l1 -> r' ∈ l2 -> ~ same_sel r r') -> sels_distinct (l1 ++ l2).
Proof.
  intros H1 H2 H i j r r' Hi Hj Hs. apply lookup_app_Some in Hi, Hj.
  assert (same_sel r' r) as Hs' by (destruct Hs as [Ha Hb]; split; intros z; [by rewrite (Ha z)|by rewrite (Hb z)]).
  destruct Hi as [Hi|[Hi1 Hi]], Hj as [Hj|[Hj1 Hj]].
  - by apply (H1 _ _ r r').
  - destruct (H r r'); [by eapply elem_of_list_lookup_2|by eapply elem_of_list_lookup_2|done].
  - destruct (H r' r); [by eapply elem_of_list_lookup_2|by eapply elem_of_list_lookup_2|done].
  - assert (i - length l1 = j - length l1); [|lia]. by apply (H2 _ _ r r').
Qed.
Lemma sels_distinct_1 r : sels_distinct [r].
Proof. intros [|i] [|j] r1 r2 Hi Hj _; [done|done|done|done]. Qed.

(** Adding a node, seen from the state. *)
Lemma add_node A B En El x i : inv A B En El -> En !! i = Some x ->
  let s := next_ext cn nls v (A ++ [x]) B (nbh cn nls v A B) (delete i En, El) (cart [[x]; B]) in
  inv A B (delete i En) El /\ inv (A ++ [x]) B (s.1) (s.2) /\
  (forall r, good_res (A ++ [x]) B (s.1) (s.2) r -> good_res A B En El r) /\
  (forall r, good_res A B (delete i En) El r -> good_res A B En El r /\ x ∉ r.1) /\
  (forall X Y, target X Y -> A ⊆ X -> B ⊆ Y -> reach A B En El X Y -> x ∈ X -> reach (A ++ [x]) B (s.1) (s.2) X Y) /\
  (forall X Y, reach A B En El X Y -> x ∉ X -> reach A B (delete i En) El X Y).
Proof.
  intros ((N1 & N2 & N3 & N4) & (E1 & E2) & (C1 & C2) & V1 & V2) Hi s.
  assert (x ∈ En) as Hx by by eapply elem_of_list_lookup_2.
  pose proof (delete_Permutation _ _ _ Hi) as Hp.
  assert (NoDup (delete i En) /\ x ∉ delete i En) as [Nd Nx].
  { rewrite Hp in N3. by apply NoDup_cons in N3 as [? ?]. }
  assert (forall y, y ∈ En <-> y = x \/ y ∈ delete i En) as Hsplit by (intros y; rewrite Hp at 1; apply elem_of_cons).
  assert (x ∉ A) as HxA by (by destruct (E1 x Hx)).
  destruct (nbh_spec A B) as [O1 O2].
  destruct (next_ext_spec (A ++ [x]) B (nbh cn nls v A B) (delete i En, El) (cart [[x]; B]) Nd N4) as (S1 & S2 & S3 & S4). fold s in S1, S2, S3, S4. cbn [fst snd] in S3, S4.
  assert (A ⊆ A ++ [x]) as HAA by (intros y Hy; apply elem_of_app; by left).
  assert (B ⊆ B) as HBB by done.
  assert (forall a, a ∈ cart [[x]; B] -> a ∈ cart [A ++ [x]; B]) as Hcart.
  { intros a (y & l & -> & ->%elem_of_list_singleton & Hl)%elem_cart2. apply elem_cart2. exists x, l. split; [done|]. split; [|done]. apply elem_of_app. right. by left. }
  assert (forall y, y ∈ s.1 -> y ∈ delete i En \/ ~ NbN A B y) as Snew1.
  { intros y [?|(Ho & _)]%S3; [by left|right]. by rewrite <- O1. }
  assert (forall y, y ∈ s.2 -> y ∈ El \/ ~ NbL A B y) as Snew2.
  { intros y [?|(Ho & _)]%S4; [by left|right]. by rewrite <- O2. }
  split; [|split; [|split; [|split; [|split]]]].
  - split; [done|]. split; [split; [|done]; intros y Hy; apply E1, Hsplit; by right|]. split; [|done]. split; [|done].
    intros y [?|?]; apply C1; [by left|right]. apply Hsplit. by right.
  - split; [split; [|done]|].
    { apply NoDup_app. split; [done|]. split; [|apply NoDup_singleton]. intros y Hy ->%elem_of_list_singleton. done. }
    split; [split|split; [split|]].
    + intros y [Hy|(Ho & HyA & Hpre & a & b & Ha & Hb)]%S3.
      * apply (NbN_mono A B); [done|done| |by apply E1, Hsplit; right]. intros [?| ->%elem_of_list_singleton]%elem_of_app; [|done].
        destruct (E1 y) as [? _]; [apply Hsplit; by right|done].
      * split; [done|]. exists a, b. split; [by apply Hcart|done].
    + intros l [Hl|(Ho & HyA & Hpre & a & b & Ha & Hb)]%S4.
      * apply (NbL_mono A B); [done|done| |by apply E2]. by destruct (E2 l Hl).
      * split; [done|]. exists a, b. split; [by apply Hcart|done].
    + intros y [[Hy| ->%elem_of_list_singleton]%elem_of_app|[Hy|(Ho & HyA & Hpre & a & b & Ha & Ha2 & Hl & Hb & <-)]%S3].
      * apply C1. by left.
      * apply C1. by right.
      * apply C1. right. apply Hsplit. by right.
      * apply HCN; [by apply Hpre|]. exists (lay1 b). by rewrite <- (post2 b Hb).
    + intros l [Hl|[Hl|(Ho & HyA & Hpre & a & b & Ha & Ha2 & Hl & Hb & <-)]%S4].
      * apply C2. by left.
      * apply C2. by right.
      * apply HCL; [apply Hpre, elem_of_app; by left|]. exists (node_of b). by rewrite <- (post2 b Hb).
    + split; [apply elem_of_app; by left|done].
  - intros r (G1 & (G2 & G3 & G4) & (R1 & R2)). split; [done|]. split; [split; [|done]; intros y Hy; by apply G2, HAA|]. split.
    + intros y Hy. destruct (R1 y Hy) as [[?| ->%elem_of_list_singleton]%elem_of_app|[[?|?]%Snew1|Hn]]; [by left|by right; left|right; left; apply Hsplit; by right|by right; right|].
      destruct (decide (y ∈ A)) as [|HyA]; [by left|]. destruct (decide (y = x)) as [->|Hyx]; [by right; left|]. right. right. intros Hnb. apply Hn.
      apply (NbN_mono A B); [done|done| |done]. intros [?| ->%elem_of_list_singleton]%elem_of_app; done.
    + intros l Hl. destruct (R2 l Hl) as [?|[[?|?]%Snew2|Hn]]; [by left|by right; left|by right; right|].
      right. right. intros Hnb. apply Hn. apply (NbL_mono A B); [done|done| |done]. by destruct Hnb.
  - intros r (G1 & G2 & (R1 & R2)). split.
    + split; [done|]. split; [done|]. split; [|done]. intros y Hy. destruct (R1 y Hy) as [?|[?|?]]; [by left| |by right; right]. right. left. apply Hsplit. by right.
    + intros Hxr. destruct (R1 x Hxr) as [?|[?|Hn]]; [done|done|]. apply Hn. by apply E1.
  - intros X Y (T1 & T2 & T3) HAX HBY (R1 & R2) HxX. split.
    + intros y Hy. destruct (decide (y ∈ A ++ [x])) as [|HyA]; [by left|]. right.
      destruct (decide (y ∈ s.1)) as [|Hys]; [by left|]. right. intros (_ & a & b & (z & l & -> & Hz & Hl)%elem_cart2 & Ha2 & Hlk' & Hb & Hby).
      assert (~ NbN A B y) as Hno.
      { intros Hnb. destruct (R1 y Hy) as [?|[[->|?]%Hsplit|?]]; [apply HyA, elem_of_app; by left|apply HyA, elem_of_app; right; by left| |done]. apply Hys, S3. by left. }
      apply Hys, S3. right. rewrite O1. split; [done|]. split; [done|]. split; [intros l' Hl'; apply T2; [done|by apply HBY]|].
      exists [z; l], b. split; [|done]. apply elem_cart2. exists z, l. split; [done|]. split; [|done].
      apply elem_of_app in Hz as [Hz|Hz]; [|done]. destruct Hno. split; [intros ?; apply HyA, elem_of_app; by left|]. exists [z; l], b. split; [|done]. apply elem_cart2. eauto.
    + intros y Hy. destruct (decide (y ∈ B)) as [|HyA]; [by left|]. right.
      destruct (decide (y ∈ s.2)) as [|Hys]; [by left|]. right. intros (_ & a & b & (z & l & -> & Hz & Hl)%elem_cart2 & Ha2 & Hlk' & Hb & Hby).
      assert (~ NbL A B y) as Hno.
      { intros Hnb. destruct (R2 y Hy) as [?|[?|?]]; [done| |done]. apply Hys, S4. by left. }
      apply Hys, S4. right. rewrite O2. split; [done|]. split; [done|]. split.
      { intros z' [Hz'| ->%elem_of_list_singleton]%elem_of_app; apply T2; [by apply HAX|done|done|done]. }
      exists [z; l], b. split; [|done]. apply elem_cart2. exists z, l. split; [done|]. split; [|done].
      apply elem_of_app in Hz as [Hz|Hz]; [|done]. destruct Hno. split; [done|]. exists [z; l], b. split; [|done]. apply elem_cart2. eauto.
  - intros X Y (R1 & R2) HxX. split; [|done]. intros y Hy. destruct (R1 y Hy) as [?|[[->|?]%Hsplit|?]]; [by left|done|by right; left|by right; right].
Qed.

(** Adding a layer, seen from the state. *)
Lemma add_layer A B El l0 i : inv A B [] El -> El !! i = Some l0 ->
  let s := next_ext cn nls v A (B ++ [l0]) (nbh cn nls v A B) ([], delete i El) (cart [A; [l0]]) in
  inv A B [] (delete i El) /\ inv A (B ++ [l0]) (s.1) (s.2) /\
  (forall r, good_res A (B ++ [l0]) (s.1) (s.2) r -> good_res A B [] El r) /\
  (forall r, good_res A B [] (delete i El) r -> good_res A B [] El r /\ l0 ∉ r.2) /\
  (forall X Y, target X Y -> A ⊆ X -> B ⊆ Y -> reach A B [] El X Y -> l0 ∈ Y -> reach A (B ++ [l0]) (s.1) (s.2) X Y) /\
  (forall X Y, reach A B [] El X Y -> l0 ∉ Y -> reach A B [] (delete i El) X Y).
Proof.
  intros ((N1 & N2 & N3 & N4) & (E1 & E2) & (C1 & C2) & V1 & V2) Hi s.
  assert (l0 ∈ El) as Hx by by eapply elem_of_list_lookup_2.
  pose proof (delete_Permutation _ _ _ Hi) as Hp.
  assert (NoDup (delete i El) /\ l0 ∉ delete i El) as [Nd Nx].
  { rewrite Hp in N4. by apply NoDup_cons in N4 as [? ?]. }
  assert (forall y, y ∈ El <-> y = l0 \/ y ∈ delete i El) as Hsplit by (intros y; rewrite Hp at 1; apply elem_of_cons).
  assert (l0 ∉ B) as HxB by (by destruct (E2 l0 Hx)).
  destruct (nbh_spec A B) as [O1 O2].
  destruct (next_ext_spec A (B ++ [l0]) (nbh cn nls v A B) ([], delete i El) (cart [A; [l0]]) N3 Nd) as (S1 & S2 & S3 & S4). fold s in S1, S2, S3, S4. cbn [fst snd] in S3, S4.
  assert (B ⊆ B ++ [l0]) as HBB by (intros y Hy; apply elem_of_app; by left).
  assert (A ⊆ A) as HAA by done.
  assert (forall a, a ∈ cart [A; [l0]] -> a ∈ cart [A; B ++ [l0]]) as Hcart.
  { intros a (y & l & -> & Hl & ->%elem_of_list_singleton)%elem_cart2. apply elem_cart2. exists y, l0. split; [done|]. split; [done|]. apply elem_of_app. right. by left. }
  assert (forall y, y ∈ s.1 -> ~ NbN A B y) as Snew1.
  { intros y [?%elem_of_nil|(Ho & _)]%S3; [done|]. by rewrite <- O1. }
  assert (forall y, y ∈ s.2 -> y ∈ delete i El \/ ~ NbL A B y) as Snew2.
  { intros y [?|(Ho & _)]%S4; [by left|right]. by rewrite <- O2. }
  split; [|split; [|split; [|split; [|split]]]].
  - split; [done|]. split; [split; [done|]; intros y Hy; apply E2, Hsplit; by right|]. split; [|done]. split; [done|].
    intros y [?|?]; apply C2; [by left|right]. apply Hsplit. by right.
  - split; [split; [done|]; split; [|done]|].
    { apply NoDup_app. split; [done|]. split; [|apply NoDup_singleton]. intros y Hy ->%elem_of_list_singleton. done. }
    split; [split|split; [split|]].
    + intros l [Hl%elem_of_nil|(Ho & HyA & Hpre & a & b & Ha & Hb)]%S3; [done|].
      split; [done|]. exists a, b. split; [by apply Hcart|done].
    + intros y [Hy|(Ho & HyA & Hpre & a & b & Ha & Hb)]%S4.
      * apply (NbL_mono A B); [done|done| |by apply E2, Hsplit; right]. intros [?| ->%elem_of_list_singleton]%elem_of_app; [|done].
        destruct (E2 y) as [? _]; [apply Hsplit; by right|done].
      * split; [done|]. exists a, b. split; [by apply Hcart|done].
    + intros l [Hl|[Hl%elem_of_nil|(Ho & HyA & Hpre & a & b & Ha & Ha2 & Hl & Hb & <-)]%S3].
      * apply C1. by left.
      * done.
      * apply HCN; [apply Hpre, elem_of_app; by left|]. exists (lay1 b). by rewrite <- (post2 b Hb).
    + intros y [[Hy| ->%elem_of_list_singleton]%elem_of_app|[Hy|(Ho & HyA & Hpre & a & b & Ha & Ha2 & Hl & Hb & <-)]%S4].
      * apply C2. by left.
      * apply C2. by right.
      * apply C2. right. apply Hsplit. by right.
      * apply HCL; [by apply Hpre|]. exists (node_of b). by rewrite <- (post2 b Hb).
    + split; [done|apply elem_of_app; by left].
  - intros r (G1 & (G2 & G3 & G4) & (R1 & R2)). split; [done|]. split; [split; [done|]; split; [|done]; intros y Hy; by apply G3, HBB|]. split.
    + intros l Hl. destruct (R1 l Hl) as [?|[?%Snew1|Hn]]; [by left|by right; right|].
      right. right. intros Hnb. apply Hn. apply (NbN_mono A B); [done|done| |done]. by destruct Hnb.
    + intros y Hy. destruct (R2 y Hy) as [[?| ->%elem_of_list_singleton]%elem_of_app|[[?|?]%Snew2|Hn]]; [by left|by right; left|right; left; apply Hsplit; by right|by right; right|].
      destruct (decide (y ∈ B)) as [|HyA]; [by left|]. destruct (decide (y = l0)) as [->|Hyx]; [by right; left|]. right. right. intros Hnb. apply Hn.
      apply (NbL_mono A B); [done|done| |done]. intros [?| ->%elem_of_list_singleton]%elem_of_app; done.
  - intros r (G1 & G2 & (R1 & R2)). split.
    + split; [done|]. split; [done|]. split; [done|]. intros y Hy. destruct (R2 y Hy) as [?|[?|?]]; [by left| |by right; right]. right. left. apply Hsplit. by right.
    + intros Hxr. destruct (R2 l0 Hxr) as [?|[?|Hn]]; [done|done|]. apply Hn. by apply E2.
  - intros X Y (T1 & T2 & T3) HAX HBY (R1 & R2) HxX. split.
    + intros y Hy. destruct (decide (y ∈ A)) as [|HyA]; [by left|]. right.
      destruct (decide (y ∈ s.1)) as [|Hys]; [by left|]. right. intros (_ & a & b & (z & l & -> & Hz & Hl)%elem_cart2 & Ha2 & Hlk' & Hb & Hby).
      assert (~ NbN A B y) as Hno.
      { intros Hnb. destruct (R1 y Hy) as [?|[?%elem_of_nil|?]]; done. }
      apply Hys, S3. right. rewrite O1. split; [done|]. split; [done|]. split.
      { intros z' [Hz'| ->%elem_of_list_singleton]%elem_of_app; apply T2; [done|by apply HBY|done|done]. }
      exists [z; l], b. split; [|done]. apply elem_cart2. exists z, l. split; [done|]. split; [done|].
      apply elem_of_app in Hl as [Hl|Hl]; [|done]. destruct Hno. split; [done|]. exists [z; l], b. split; [|done]. apply elem_cart2. eauto.
    + intros y Hy. destruct (decide (y ∈ B ++ [l0])) as [|HyA]; [by left|]. right.
      destruct (decide (y ∈ s.2)) as [|Hys]; [by left|]. right. intros (_ & a & b & (z & l & -> & Hz & Hl)%elem_cart2 & Ha2 & Hlk' & Hb & Hby).
      assert (~ NbL A B y) as Hno.
      { intros Hnb. destruct (R2 y Hy) as [?|[[->|?]%Hsplit|?]]; [apply HyA, elem_of_app; by left|apply HyA, elem_of_app; right; by left| |done]. apply Hys, S4. by left. }
      apply Hys, S4. right. rewrite O2. split; [done|]. split; [done|]. split; [intros l' Hl'; apply T2; [by apply HAX|done]|].
      exists [z; l], b. split; [|done]. apply elem_cart2. exists z, l. split; [done|]. split; [done|].
      apply elem_of_app in Hl as [Hl|Hl]; [|done]. destruct Hno. split; [intros ?; apply HyA, elem_of_app; by left|]. exists [z; l], b. split; [|done]. apply elem_cart2. eauto.
  - intros X Y (R1 & R2) HxX. split; [done|]. intros y Hy. destruct (R2 y Hy) as [?|[[->|?]%Hsplit|?]]; [by left|done|by right; left|by right; right].
Qed.

(** Nothing left to add: no larger selection is reachable. *)
Lemma stuck A B X Y : inv A B [] [] -> target X Y -> A ⊆ X -> B ⊆ Y -> reach A B [] [] X Y -> X ⊆ A /\ Y ⊆ B.
Proof.
  intros (_ & _ & _ & V1 & V2) (_ & T2 & T3) HA HB (R1 & R2).
  assert (~ ((exists x, x ∈ X /\ x ∉ A) \/ (exists l, l ∈ Y /\ l ∉ B))) as Hno.
  { intros H. destruct (T3 A B HA HB V1 V2 H) as (a & b & Ha & Ha' & Hl & Hb & Hb').
    apply elem_cart2 in Hb as (y & m & -> & Hy & Hm).
    assert ([y; m] ∈ post) as Hpost.
    { destruct (Hlk _ _ Hl) as [_ [Hp|[Hv|Hp]%elem_of_cons]%elem_of_app]; [by destruct (T2 y m Hy Hm)| |done].
      destruct Hb'. rewrite Hv. apply elem_cart2. eauto. }
    destruct (decide (y ∈ A)) as [HyA|HyA]; [destruct (decide (m ∈ B)) as [HmB|HmB]|].
    - destruct Hb'. apply elem_cart2. eauto.
    - destruct (R2 m Hm) as [?|[?%elem_of_nil|Hn]]; [done|done|]. apply Hn. split; [done|]. exists a, [y; m]. eauto 10.
    - destruct (R1 y Hy) as [?|[?%elem_of_nil|Hn]]; [done|done|]. apply Hn. split; [done|]. exists a, [y; m]. eauto 10. }
  split; intros z Hz.
  - destruct (decide (z ∈ A)); [done|]. destruct Hno. left. eauto.
  - destruct (decide (z ∈ B)); [done|]. destruct Hno. right. eauto.
Qed.

Lemma passes_app o1 o2 : passes (o1 ++ o2) -> passes o2.
Proof. intros H iq pr Hi. apply H, elem_of_app. by right. Qed.

Section loop.
Context (rec : list name -> list name -> list name -> list name -> found -> oracle -> res (found * oracle)).
Context (A B : list name) (depth : nat).
Context (Hrec : forall A' B' En El rs orc, inv A' B' En El -> length A' + length B' = S (length A + length B) -> post_ok A' B' En El rs orc (rec A' B' En El rs orc)).
Context (Hprop : ~ (Z.of_nat (length A) = rn /\ Z.of_nat (length B) = rl)) (Hdep : is_Some (p !! depth)).
Lemma esu_loop_ok k En El rs orc : k = length En + length El -> inv A B En El ->
  post_ok A B En El rs orc (esu_loop cn nls v p rec A B (nbh cn nls v A B) depth k En El rs orc).
Proof.
  revert En El rs orc. induction k as [|k IH]; intros En El rs orc Hk Hinv.
  - destruct En; [|done]. destruct El; [|done]. split; [by exists []|]. exists []. rewrite app_nil_r. split; [done|]. split; [by intros r ?%elem_of_nil|]. split; [apply sels_distinct_nil|].
    intros _ X Y HT HA HB HR. exfalso. destruct (stuck _ _ _ _ Hinv HT HA HB HR) as [HXA HYB].
    destruct Hinv as ((N1 & N2 & _) & _). destruct HT as ((T1 & T2 & T3 & T4 & _) & _).
    apply Hprop. rewrite <- T3, <- T4. split; f_equal; apply Permutation_length; apply NoDup_Permutation; try done; intros z; split; auto.
  - destruct Hdep as [pr Hpr]. assert (pr ∈ p) as Hprp by by eapply elem_of_list_lookup_2.
    cbn [esu_loop]. destruct orc as [|[i q] orc]; [done|]. destruct En as [|e En].
    + destruct (El !! i) as [l|] eqn:Ei; [|done]. rewrite Hpr.
      destruct (add_layer A B El l i Hinv Ei) as (I1 & I2 & I3 & I4 & I5 & I6). set (s := next_ext _ _ _ _ _ _ _ _) in *.
      assert (k = length (@nil name) + length (delete i El)) as Hk'.
      { pose proof (length_delete El i (ltac:(eauto))) as HD. simpl in Hk. simpl. lia. }
      destruct (qlt q pr) eqn:Eq.
      * specialize (Hrec A (B ++ [l]) (s.1) (s.2) rs orc I2 (ltac:(rewrite app_length; simpl; lia))).
        destruct (rec A (B ++ [l]) (s.1) (s.2) rs orc) as [[rs1 orc1]|er]; [|done]. cbn [rbind fst snd].
        destruct Hrec as ([u1 ->] & new1 & -> & G1 & D1 & F1).
        specialize (IH [] (delete i El) (rs ++ new1) orc1 Hk' I1).
        destruct (esu_loop _ _ _ _ _ _ _ _ _ _ _ _ _ _) as [[rs2 orc2]|er]; [|done].
        destruct IH as ([u2 ->] & new2 & -> & G2 & D2 & F2).
        split; [exists ((i, q) :: u1 ++ u2); simpl; by rewrite app_assoc|]. exists (new1 ++ new2). split; [by rewrite app_assoc|].
        split; [intros r [Hr|Hr]%elem_of_app; [by apply I3, G1|by apply I4, G2]|]. split.
        { apply sels_distinct_app; [done|done|]. intros r r' Hr Hr' [_ Hs]. destruct (I4 r' (G2 r' Hr')) as [_ Hn]. apply Hn, Hs.
          destruct (G1 r Hr) as (_ & (_ & HB & _) & _). apply HB, elem_of_app. right. by left. }
        intros Hpass. assert (passes (u1 ++ u2 ++ orc2)) as Hp1 by by apply (passes_app [(i, q)]). assert (passes (u2 ++ orc2)) as Hp2 by by apply (passes_app u1).
        intros X Y HT HA HB HR. destruct (decide (l ∈ Y)) as [Hl|Hl].
        { destruct (F1 Hp1 X Y HT HA) as (r & Hr & Hs); [|by apply I5|exists r; split; [apply elem_of_app; by left|done]].
          intros z [Hz| ->%elem_of_list_singleton]%elem_of_app; [by apply HB|done]. }
        { destruct (F2 Hp2 X Y HT HA HB) as (r & Hr & Hs); [by apply I6|exists r; split; [apply elem_of_app; by right|done]]. }
      * specialize (IH [] (delete i El) rs orc Hk' I1).
        destruct (esu_loop _ _ _ _ _ _ _ _ _ _ _ _ _ _) as [[rs2 orc2]|er]; [|done].
        destruct IH as ([u2 ->] & new2 & -> & G2 & D2 & F2).
        split; [by exists ((i, q) :: u2)|]. exists new2. split; [done|]. split; [intros r Hr; by apply I4, G2|]. split; [done|].
        intros Hpass. specialize (Hpass (i, q) pr (ltac:(by left)) Hprp). simpl in Hpass. congruence.
    + destruct ((e :: En) !! i) as [x|] eqn:Ei; [|done]. rewrite Hpr.
      destruct (add_node A B (e :: En) El x i Hinv Ei) as (I1 & I2 & I3 & I4 & I5 & I6). set (s := next_ext _ _ _ _ _ _ _ _) in *.
      assert (k = length (delete i (e :: En)) + length El) as Hk'.
      { pose proof (length_delete (e :: En) i (ltac:(eauto))) as HD. cbn [length] in Hk, HD. lia. }
      set (En' := delete i (e :: En)) in *.
      destruct (qlt q pr) eqn:Eq.
      * specialize (Hrec (A ++ [x]) B (s.1) (s.2) rs orc I2 (ltac:(rewrite app_length; simpl; lia))).
        destruct (rec (A ++ [x]) B (s.1) (s.2) rs orc) as [[rs1 orc1]|er]; [|done]. cbn [rbind fst snd].
        destruct Hrec as ([u1 ->] & new1 & -> & G1 & D1 & F1).
        specialize (IH En' El (rs ++ new1) orc1 Hk' I1).
        destruct (esu_loop _ _ _ _ _ _ _ _ _ _ _ _ _ _) as [[rs2 orc2]|er]; [|done].
        destruct IH as ([u2 ->] & new2 & -> & G2 & D2 & F2).
        split; [exists ((i, q) :: u1 ++ u2); simpl; by rewrite app_assoc|]. exists (new1 ++ new2). split; [by rewrite app_assoc|].
        split; [intros r [Hr|Hr]%elem_of_app; [by apply I3, G1|by apply I4, G2]|]. split.
        { apply sels_distinct_app; [done|done|]. intros r r' Hr Hr' [Hs _]. destruct (I4 r' (G2 r' Hr')) as [_ Hn]. apply Hn, Hs.
          destruct (G1 r Hr) as (_ & (HB & _ & _) & _). apply HB, elem_of_app. right. by left. }
        intros Hpass. assert (passes (u1 ++ u2 ++ orc2)) as Hp1 by by apply (passes_app [(i, q)]). assert (passes (u2 ++ orc2)) as Hp2 by by apply (passes_app u1).
        intros X Y HT HA HB HR. destruct (decide (x ∈ X)) as [Hl|Hl].
        { destruct (F1 Hp1 X Y HT) as (r & Hr & Hs); [|done|by apply I5|exists r; split; [apply elem_of_app; by left|done]].
          intros z [Hz| ->%elem_of_list_singleton]%elem_of_app; [by apply HA|done]. }
        { destruct (F2 Hp2 X Y HT HA HB) as (r & Hr & Hs); [by apply I6|exists r; split; [apply elem_of_app; by right|done]]. }
      * specialize (IH En' El rs orc Hk' I1).
        destruct (esu_loop _ _ _ _ _ _ _ _ _ _ _ _ _ _) as [[rs2 orc2]|er]; [|done].
        destruct IH as ([u2 ->] & new2 & -> & G2 & D2 & F2).
        split; [by exists ((i, q) :: u2)|]. exists new2. split; [done|]. split; [intros r Hr; by apply I4, G2|]. split; [done|].
        intros Hpass. specialize (Hpass (i, q) pr (ltac:(by left)) Hprp). simpl in Hpass. congruence.
Qed.
End loop.

(** The checker always answers on selections of the right size. *)
Context (Hchk : forall A B, NoDup A -> NoDup B -> Z.of_nat (length A) = rn -> Z.of_nat (length B) = rl ->
  (forall x, x ∈ A -> CN x) -> (forall l, l ∈ B -> CL l) -> exists b, chk cn A B = Ok b).
Context (Hp : (rn + rl - 1 <= Z.of_nat (length p))%Z).
Lemma esu_extend_ok fuel depth A B En El rs orc : inv A B En El -> S depth = length A + length B ->
  post_ok A B En El rs orc (esu_extend cn nls chk v rn rl p fuel depth A B En El rs orc).
Proof.
  revert depth A B En El rs orc. induction fuel as [|fuel IH]; intros depth A B En El rs orc Hinv Hd; [done|].
  cbn [esu_extend]. case_decide as D1.
  { split; [by exists []|]. exists []. rewrite app_nil_r. split; [done|]. split; [by intros r ?%elem_of_nil|]. split; [apply sels_distinct_nil|].
    intros _ X Y ((T1 & T2 & T3 & T4 & _) & _) HA HB _. exfalso. destruct Hinv as ((N1 & N2 & _) & _).
    assert (length A <= length X) by (by apply submseteq_length, NoDup_submseteq).
    assert (length B <= length Y) by (by apply submseteq_length, NoDup_submseteq). lia. }
  case_decide as D2.
  { pose proof Hinv as ((N1 & N2 & _) & _ & (C1 & C2) & V). destruct D2 as [L1 L2]. destruct (Hchk A B N1 N2 L1 L2 (fun x Hx => C1 x (or_introl Hx)) (fun x Hx => C2 x (or_introl Hx))) as [b Hb]. rewrite Hb. cbn [rbind].
    split; [by exists []|].
    assert (forall X Y, target X Y -> A ⊆ X -> B ⊆ Y -> A ≡ₚ X /\ B ≡ₚ Y) as Heq.
    { intros X Y ((T1 & T2 & T3 & T4 & _) & _) HA HB. split; apply submseteq_Permutation_length_le; try lia; by apply NoDup_submseteq. }
    destruct b.
    - exists [(A, B)]. split; [done|]. split; [|split; [apply sels_distinct_1|]].
      + intros r ->%elem_of_list_singleton. split; [done|]. split; [split; [done|]; split; [done|]; split; intros z Hz; [apply C1|apply C2]; by left|].
        split; intros z Hz; by left.
      + intros _ X Y HT HA HB _. destruct (Heq X Y HT HA HB) as [E1 E2]. exists (A, B). split; [by left|]. split; intros z; simpl; [by rewrite E1|by rewrite E2].
    - exists []. rewrite app_nil_r. split; [done|]. split; [by intros r ?%elem_of_nil|]. split; [apply sels_distinct_nil|].
      intros _ X Y HT HA HB _. destruct (Heq X Y HT HA HB) as [E1 E2]. destruct HT as ((_ & _ & _ & _ & T) & _). rewrite (T A B E1 E2) in Hb. done. }
  set (En' := if decide (Z.of_nat (length A) = rn) then [] else En).
  assert (inv A B En' El) as Hinv'.
  { unfold En'. case_decide; [|done]. destruct Hinv as ((N1 & N2 & N3 & N4) & (E1 & E2) & (C1 & C2) & V).
    split; [split; [done|]; split; [done|]; split; [constructor|done]|]. split; [split; [|done]; by intros z ?%elem_of_nil|]. split; [|done]. split; [|done].
    intros x [?|?%elem_of_nil]; [|done]. apply C1. by left. }
  assert (is_Some (p !! depth)) as Hdep by (apply lookup_lt_is_Some; lia).
  pose proof (esu_loop_ok (esu_extend cn nls chk v rn rl p fuel (S depth)) A B depth) as HL.
  specialize (HL (fun A' B' En0 El0 rs0 orc0 Hi Hs => IH (S depth) A' B' En0 El0 rs0 orc0 Hi (ltac:(lia))) D2 Hdep _ En' El rs orc eq_refl Hinv').
  destruct (esu_loop _ _ _ _ _ _ _ _ _ _ _ _ _ _) as [[rs2 orc2]|er]; [|done].
  destruct HL as (Hu & new & -> & G & D & F). split; [done|]. exists new. split; [done|].
  unfold En' in G, F. case_decide as D3; [|done]. split; [|split; [done|]].
  - intros r Hr. destruct (G r Hr) as (G1 & G2 & (R1 & R2)). split; [done|]. split; [done|]. split; [|done].
    intros x Hx. destruct (R1 x Hx) as [?|[?%elem_of_nil|?]]; [by left|done|by right; right].
  - intros Hpass X Y HT HA HB (R1 & R2). apply (F Hpass X Y HT HA HB). split; [|done]. intros x Hx. left.
    destruct HT as ((T1 & T2 & T3 & T4 & _) & _). destruct Hinv as ((N1 & N2 & _) & _).
    assert (A ≡ₚ X) as ->; [|done]. apply submseteq_Permutation_length_le; [lia|]. by apply NoDup_submseteq.
Qed.

(** A run that uses up no more than it is given exists. *)
Lemma esu_loop_runs rec A B depth q0 k En El :
  (forall A' B' En El, inv A' B' En El -> length A' + length B' = S (length A + length B) ->
     exists o, (forall iq, iq ∈ o -> iq.2 = q0) /\ forall rs rest, exists rs', rec A' B' En El rs (o ++ rest) = Ok (rs', rest)) ->
  is_Some (p !! depth) -> k = length En + length El -> inv A B En El ->
  exists o : oracle, (forall iq, iq ∈ o -> iq.2 = q0) /\ forall rs rest, exists rs',
    esu_loop cn nls v p rec A B (nbh cn nls v A B) depth k En El rs (o ++ rest) = Ok (rs', rest).
Proof.
  intros Hrec [pr Hpr]. revert En El. induction k as [|k IH]; intros En El Hk Hinv.
  - exists []. split; [by intros iq ?%elem_of_nil|]. intros rs rest. by exists rs.
  - destruct En as [|x En].
    + destruct El as [|l El]; [done|].
      destruct (add_layer A B (l :: El) l 0 Hinv eq_refl) as (I1 & I2 & _). set (s := next_ext _ _ _ _ _ _ _ _) in *.
      destruct (IH [] (delete 0 (l :: El))) as (o2 & Ho2 & Hr2); [simpl; simpl in Hk; lia|done|].
      destruct (qlt q0 pr) eqn:Eq.
      * destruct (Hrec A (B ++ [l]) (s.1) (s.2) I2) as (o1 & Ho1 & Hr1); [rewrite app_length; simpl; lia|].
        exists ((0, q0) :: o1 ++ o2). split; [intros iq [->|[?|?]%elem_of_app]%elem_of_cons; [done|by apply Ho1|by apply Ho2]|].
        intros rs rest. destruct (Hr1 rs (o2 ++ rest)) as [rs1 E1]. destruct (Hr2 rs1 rest) as [rs2 E2]. exists rs2.
        cbn [esu_loop app]. change ((l :: El) !! 0) with (Some l). cbv iota beta. rewrite Hpr, Eq. fold s. rewrite <- app_assoc, E1. cbn [rbind fst snd]. exact E2.
      * exists ((0, q0) :: o2). split; [intros iq [->|?]%elem_of_cons; [done|by apply Ho2]|].
        intros rs rest. destruct (Hr2 rs rest) as [rs2 E2]. exists rs2. cbn [esu_loop app]. change ((l :: El) !! 0) with (Some l). cbv iota beta. rewrite Hpr, Eq. exact E2.
    + destruct (add_node A B (x :: En) El x 0 Hinv eq_refl) as (I1 & I2 & _). set (s := next_ext _ _ _ _ _ _ _ _) in *.
      destruct (IH (delete 0 (x :: En)) El) as (o2 & Ho2 & Hr2); [simpl; simpl in Hk; lia|done|].
      destruct (qlt q0 pr) eqn:Eq.
      * destruct (Hrec (A ++ [x]) B (s.1) (s.2) I2) as (o1 & Ho1 & Hr1); [rewrite app_length; simpl; lia|].
        exists ((0, q0) :: o1 ++ o2). split; [intros iq [->|[?|?]%elem_of_app]%elem_of_cons; [done|by apply Ho1|by apply Ho2]|].
        intros rs rest. destruct (Hr1 rs (o2 ++ rest)) as [rs1 E1]. destruct (Hr2 rs1 rest) as [rs2 E2]. exists rs2.
        cbn [esu_loop app]. change ((x :: En) !! 0) with (Some x). cbv iota beta. rewrite Hpr, Eq. fold s. rewrite <- app_assoc, E1. cbn [rbind fst snd]. exact E2.
      * exists ((0, q0) :: o2). split; [intros iq [->|?]%elem_of_cons; [done|by apply Ho2]|].
        intros rs rest. destruct (Hr2 rs rest) as [rs2 E2]. exists rs2. cbn [esu_loop app]. change ((x :: En) !! 0) with (Some x). cbv iota beta. rewrite Hpr, Eq. exact E2.
Qed.
Lemma esu_extend_runs q0 fuel depth A B En El : inv A B En El -> S depth = length A + length B ->
  fuel <> 0 -> (rn + rl + 1 <= Z.of_nat (fuel + length A + length B))%Z ->
  exists o : oracle, (forall iq, iq ∈ o -> iq.2 = q0) /\ forall rs rest, exists rs',
    esu_extend cn nls chk v rn rl p fuel depth A B En El rs (o ++ rest) = Ok (rs', rest).
Proof.
  revert depth A B En El. induction fuel as [|fuel IH]; intros depth A B En El Hinv Hd Hne Hf; [done|].
  cbn [esu_extend]. case_decide as D1.
  { exists []. split; [by intros iq ?%elem_of_nil|]. intros rs rest. by exists rs. }
  case_decide as D2.
  { pose proof Hinv as ((N1 & N2 & _) & _ & (C1 & C2) & _). destruct D2 as [L1 L2]. destruct (Hchk A B N1 N2 L1 L2 (fun x Hx => C1 x (or_introl Hx)) (fun x Hx => C2 x (or_introl Hx))) as [b Hb]. rewrite Hb. cbn [rbind].
    exists []. split; [by intros iq ?%elem_of_nil|]. intros rs rest. by eexists. }
  set (En' := if decide (Z.of_nat (length A) = rn) then [] else En).
  assert (inv A B En' El) as Hinv'.
  { unfold En'. case_decide; [|done]. destruct Hinv as ((N1 & N2 & N3 & N4) & (E1 & E2) & (C1 & C2) & V).
    split; [split; [done|]; split; [done|]; split; [constructor|done]|]. split; [split; [|done]; by intros z ?%elem_of_nil|]. split; [|done]. split; [|done].
    intros x [?|?%elem_of_nil]; [|done]. apply C1. by left. }
  apply esu_loop_runs; [|apply lookup_lt_is_Some; lia|done|done].
  intros A' B' En0 El0 Hi Hs. apply IH; [done|lia|lia|lia].
Qed.
End root.
