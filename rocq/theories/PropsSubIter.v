(** * C74: subnet_iter *)
From Verif Require Import MpxIter MpxBuild MpxRelabel MpxSub SubIter PropsNet PropsTrans TransFacts TransFacts2 Build NetEdges SampFacts PartFacts MpxEdges PropsMpxEdges PropsMpx PropsMpxRelabel PropsMpxSub.
Local Open Scope nat_scope.

(** [L] lists every [x] with [ok x] exactly once, up to [same]. *)
Definition each_once {A} (ok : A -> Prop) (same : A -> A -> Prop) (L : list A) : Prop :=
  NoDup L /\ (forall x, x ∈ L -> ok x) /\ (forall x, ok x -> exists y, y ∈ L /\ same x y) /\ (forall y z, y ∈ L -> z ∈ L -> same y z -> y = z).
Definition same_set {A} (s t : list A) : Prop := forall x, x ∈ s <-> x ∈ t.
(** [c] chooses a nonempty set of names for each coordinate in [rem] and all names for the
    other coordinates; [has k x] says that [x] is a name of coordinate [k]. *)
Definition choice_of (asp : nat) (has : nat -> name -> Prop) (rem : list nat) (c : list (list name)) : Prop :=
  length c = S asp /\ forall k s, c !! k = Some s ->
    (forall x, x ∈ s -> has k x) /\ (k ∈ rem -> s <> []) /\ (k ∉ rem -> forall x, has k x -> x ∈ s).
Definition choice (n : mlnet) (rem : list nat) (c : list (list name)) : Prop := choice_of (aspects n) (has_elem n) rem c.
Definition same_choice (c d : list (list name)) : Prop := Forall2 same_set c d.
Definition chosen (c : list (list name)) (a : nl) : Prop := forall k x s, a !! k = Some x -> c !! k = Some s -> x ∈ s.
(** [m] is the subnetwork of [n] induced by [c]. *)
Definition induced (n : mlnet) (c : list (list name)) (m : mlnet) : Prop :=
  reachable m /\ aspects m = aspects n /\ same_config n m /\
  (forall a b w, length a = S (aspects n) -> length b = S (aspects n) -> chosen c a -> chosen c b -> reads m a b w <-> reads n a b w) /\
  (forall a b, length a = S (aspects n) -> length b = S (aspects n) -> ~ (chosen c a /\ chosen c b) -> reads m a b (noEdge n)) /\
  (forall a, a ∈ iter_node_layers m <-> a ∈ iter_node_layers n /\ chosen c a) /\
  (forall k x, fic n = true \/ k <> 0 -> has_elem m k x <-> exists s, c !! k = Some s /\ x ∈ s).
(** One of the edges [T] names the link from [a] to [b]. *)
Definition in_edges (n : mlnet) (T : list (list name * Z)) (a b : nl) : Prop :=
  exists e, e ∈ T /\ (names_link (aspects n) (e.1) a b \/ directed n = false /\ names_link (aspects n) (e.1) b a).
Definition touched (n : mlnet) (T : list (list name * Z)) (a : nl) : Prop := exists b, in_edges n T a b \/ in_edges n T b a.
(** [m] has the chosen nodes, layers and node-layers, those named by the edges [T] whether
    chosen or not, and the links in [T] between chosen node-layers. *)
Definition edge_sub (n : mlnet) (c : list (list name)) (T : list (list name * Z)) (m : mlnet) : Prop :=
  reachable m /\ aspects m = aspects n /\ same_config n m /\
  (forall a b w, length a = S (aspects n) -> length b = S (aspects n) -> chosen c a -> chosen c b -> in_edges n T a b -> reads m a b w <-> reads n a b w) /\
  (forall a b, length a = S (aspects n) -> length b = S (aspects n) -> ~ (chosen c a /\ chosen c b /\ in_edges n T a b) -> reads m a b (noEdge n)) /\
  (fic n = false -> forall a, a ∈ iter_node_layers m <-> a ∈ iter_node_layers n /\ chosen c a \/ touched n T a) /\
  (forall k x, fic n = true \/ k <> 0 -> has_elem m k x <-> (exists s, c !! k = Some s /\ x ∈ s) \/ exists a, touched n T a /\ a !! k = Some x).

Lemma same_set_refl {A} (s : list A) : same_set s s.
Proof. by intros x. Qed.
Lemma cart_once {A} (oks : list (A -> Prop)) (same : A -> A -> Prop) Ls : Forall2 (fun ok L => each_once ok same L) oks Ls ->
  each_once (fun c => Forall2 (fun ok s => ok s) oks c) (Forall2 same) (cart Ls).
Proof.
  intros H. split_and!.
  - apply NoDup_cart. induction H as [|ok L oks Ls [Hn _] H IH]; by constructor.
  - intros c Hc%elem_of_cart. revert c Hc. induction H as [|ok L oks Ls (_ & Ho & _) H IH]; intros c Hc; inversion Hc; subst; constructor; auto.
  - intros c Hc. setoid_rewrite elem_of_cart. revert c Hc. induction H as [|ok L oks Ls (_ & _ & Ho & _) H IH]; intros c Hc; inversion Hc as [|? ? ? ? Hx Hc']; subst.
    + exists []. by split.
    + destruct (IH _ Hc') as (d & Hd & Hs). destruct (Ho _ Hx) as (y' & Hy & Hsy). exists (y' :: d). by split; constructor.
  - setoid_rewrite elem_of_cart. induction H as [|ok L oks Ls (_ & _ & _ & Ho) H IH]; intros c d Hc Hd Hs; inversion Hc as [|? ? ? ? ? Hc']; inversion Hd as [|? ? ? ? ? Hd']; subst; [done|].
    inversion Hs as [|? ? ? ? ? Hs']; subst. f_equal; auto.
Qed.
Lemma nonzero_once {A} `{EqDecision A} (s : list A) : NoDup s ->
  each_once (fun t => (forall x, x ∈ t -> x ∈ s) /\ t <> []) same_set (layer_combinations s).
Proof.
  intros Hs. destruct (layer_combinations_ok s Hs) as (H1 & H2 & H3 & H4). split_and!; [done| | |].
  - intros t Ht. destruct (H1 t Ht) as (_ & ? & ?). done.
  - intros t [Ht Hne]. destruct (H2 (remove_dups t)) as (c & Hc & Hp); [apply NoDup_remove_dups|..].
    + intros E. destruct t as [|x t]; [done|]. assert (x ∈ remove_dups (x :: t)) as Hx by (apply elem_of_remove_dups; left). rewrite E in Hx. by apply elem_of_nil in Hx.
    + intros x Hx. apply Ht. by apply elem_of_remove_dups.
    + exists c. split; [done|]. intros x. by rewrite Hp, elem_of_remove_dups.
  - intros t u Ht Hu Hs'. apply H4; [done..|]. destruct (H1 t Ht) as (? & _), (H1 u Hu) as (? & _). by apply NoDup_Permutation.
Qed.
Lemma all_once {A} `{EqDecision A} (s : list A) : NoDup s -> each_once (fun t => forall x, x ∈ t -> x ∈ s) same_set (all_combinations s).
Proof.
  intros Hs. destruct (nonzero_once s Hs) as (H1 & H2 & H3 & H4). unfold all_combinations. change (seq 0 (S (length s))) with (0 :: seq 1 (length s)).
  rewrite bind_cons, combs_0. fold (layer_combinations s). change ([[]] ++ layer_combinations s) with ([] :: layer_combinations s). split_and!.
  - apply NoDup_cons. split; [|done]. intros Hn%H2. by destruct Hn.
  - intros t [->|Ht]%elem_of_cons x Hx; [by apply elem_of_nil in Hx|]. by apply (H2 t Ht).
  - intros [|y t] Ht; [exists []; split; [left|apply same_set_refl]|]. destruct (H3 (y :: t)) as (u & Hu & Hs'); [done|]. exists u. split; [by right|done].
  - assert (forall t, t ∈ layer_combinations s -> ~ same_set [] t) as Hno.
    { intros [|x t] Ht; [by destruct (H2 _ Ht)|]. intros E. assert (x ∈ ([] : list A)) as Hx by (apply E; left). by apply elem_of_nil in Hx. }
    intros t u [->|Ht]%elem_of_cons [->|Hu]%elem_of_cons Hs'; [done| | |by apply H4].
    + exfalso. by apply (Hno u Hu).
    + exfalso. apply (Hno t Ht). intros x. by rewrite (Hs' x).
Qed.
Lemma once_ext {A} (ok ok' : A -> Prop) same L : (forall x, ok x <-> ok' x) -> each_once ok same L -> each_once ok' same L.
Proof. intros H (H1 & H2 & H3 & H4). split_and!; [done| | |done]; intros x Hx; [apply H; auto|apply H3; by apply H]. Qed.
Lemma once_pairs {A B} (ok1 : A -> Prop) (same1 : A -> A -> Prop) (ok2 : B -> Prop) (same2 : B -> B -> Prop) L M :
  each_once ok1 same1 L -> each_once ok2 same2 M ->
  each_once (fun p => ok1 (p.1) /\ ok2 (p.2)) (fun p q => same1 (p.1) (q.1) /\ same2 (p.2) (q.2)) (L ≫= fun x => (fun y => (x, y)) <$> M).
Proof.
  intros (A1 & A2 & A3 & A4) (B1 & B2 & B3 & B4). assert (forall p, p ∈ (L ≫= fun x => (fun y => (x, y)) <$> M) <-> p.1 ∈ L /\ p.2 ∈ M) as Hel.
  { intros [x y]. rewrite elem_of_list_bind. setoid_rewrite elem_of_list_fmap. simpl. split; [intros (x' & (y' & [= -> ->] & ?) & ?); done|]. intros [? ?]. exists x. split; [by exists y|done]. }
  split_and!.
  - apply NoDup_bind; [done| |].
    + intros x _. apply NoDup_fmap; [|done]. by intros ? ? [= ?].
    + intros x x' p _ _ (? & -> & _)%elem_of_list_fmap (? & [= ? ?] & _)%elem_of_list_fmap. done.
  - intros p [? ?]%Hel. auto.
  - intros [x y] [Hx Hy]. destruct (A3 x Hx) as (x' & ? & ?), (B3 y Hy) as (y' & ? & ?). exists (x', y'). split; [by apply Hel|done].
  - intros [x y] [x' y'] [? ?]%Hel [? ?]%Hel [? ?]. simpl in *. f_equal; auto.
Qed.
Lemma NoDup_edges n : good n -> NoDup (edges n).
Proof.
  intros Hg. pose proof (src_of_ok n Hg) as Hok. pose proof (so_edges _ _ _ Hok) as E. simpl in E. rewrite E.
  assert (forall a b, (a, b) ∈ npairs n -> length a = S (aspects n) /\ length b = S (aspects n)) as Hlen.
  { intros a b Hab. destruct (so_end _ _ _ Hok a b Hab) as [H1 H2]. split; by apply present_len. }
  pose proof (so_nd _ _ _ Hok) as Hnd. clear E Hok. induction (npairs n) as [|[a b] l IH]; [constructor|]. apply NoDup_cons in Hnd as [Hx Hnd]. cbn [fmap list_fmap]. apply NoDup_cons. split.
  - intros ([c d] & [= E _] & Hcd)%elem_of_list_fmap. destruct (Hlen a b ltac:(left)), (Hlen c d ltac:(by right)). apply interleave_inj in E as [-> ->]; [done|simpl; congruence..].
  - apply IH; [|done]. intros c d Hcd. apply Hlen. by right.
Qed.
Lemma choices_once_gen asp (has : nat -> name -> Prop) sls rem : length sls = S asp -> Forall NoDup sls -> (forall k x, has k x <-> exists s, sls !! k = Some s /\ x ∈ s) ->
  each_once (choice_of asp has rem) same_choice (iter_choices sls rem).
Proof.
  intros HSl HSn Hhas. eapply once_ext; [|apply (cart_once (imap (fun k s t => (forall x, x ∈ t -> x ∈ s) /\ (k ∈ rem -> t <> []) /\ (k ∉ rem -> forall x, x ∈ s -> x ∈ t)) sls))].
  - intros c. unfold choice_of. rewrite Forall2_same_length_lookup, imap_length, HSl. setoid_rewrite list_lookup_imap. setoid_rewrite Hhas. split.
    + intros [Hl Hc]. split; [done|]. intros k t Ht. destruct (lookup_lt_is_Some_2 sls k) as [s Hs].
      { rewrite HSl, Hl. by eapply lookup_lt_Some. }
      destruct (Hc k (fun t => (forall x, x ∈ t -> x ∈ s) /\ (k ∈ rem -> t <> []) /\ (k ∉ rem -> forall x, x ∈ s -> x ∈ t)) t) as (C1 & C2 & C3); [by rewrite Hs|done|]. split; [eauto|]. split; [done|].
      intros Hk x (s' & Hs' & Hx). rewrite Hs in Hs'. injection Hs' as <-. auto.
    + intros [Hl Hc]. split; [done|]. intros k ok t Hok Ht. destruct (sls !! k) as [s|] eqn:Hs; [|done]. injection Hok as <-. destruct (Hc k t Ht) as (C1 & C2 & C3). split; [|split; [done|]].
      * intros x Hx. destruct (C1 x Hx) as (s' & Hs' & Hxs). rewrite Hs in Hs'. by injection Hs' as <-.
      * intros Hk x Hx. apply C3; eauto.
  - apply Forall2_same_length_lookup. split; [by rewrite !imap_length|]. intros k ok L. rewrite !list_lookup_imap. destruct (sls !! k) as [s|] eqn:Hs; [|done]. intros [= <-] [= <-].
    assert (NoDup s) as Hnd by (by eapply (Forall_lookup_1 _ _ _ _ HSn)). destruct (decide (k ∈ rem)) as [Hk|Hk].
    + eapply once_ext; [|by apply nonzero_once]. intros t. simpl. tauto.
    + split_and!.
      * apply NoDup_singleton.
      * intros t ->%elem_of_list_singleton. done.
      * intros t (T1 & _ & T3). exists s. split; [left|]. intros x. split; auto.
      * by intros t u ->%elem_of_list_singleton ->%elem_of_list_singleton.
Qed.
Lemma choices_once n rem : good n -> each_once (choice n rem) same_choice (iter_choices (slices n) rem).
Proof. intros [HS HL]. apply choices_once_gen; [apply (wfS_len _ HS)|apply (wfS_nodup _ HS)|]. intros k x. rewrite has_elem_sl. done. Qed.
Lemma sel_chosen n rem c a : choice n rem c -> length a = S (aspects n) -> sel_nl (Some <$> c) a <-> chosen c a.
Proof.
  intros [Hc _] Ha. unfold sel_nl, chosen. setoid_rewrite list_lookup_fmap. split.
  - intros H k x s Hx Hs. apply (H k x (Some s) Hx). by rewrite Hs.
  - intros H k x o Hx Ho. destruct (c !! k) as [s|] eqn:Hs; [|done]. injection Ho as <-. by apply (H k).
Qed.
Lemma sel_elem n rem c k x : choice n rem c -> (has_elem n k x /\ exists o, (Some <$> c) !! k = Some o /\ sel_name o x) <-> exists s, c !! k = Some s /\ x ∈ s.
Proof.
  intros [_ Hc]. rewrite list_lookup_fmap. split.
  - intros [_ (o & Ho & Hx)]. destruct (c !! k) as [s|]; [|done]. injection Ho as <-. eauto.
  - intros (s & Hs & Hx). split; [by apply (Hc k s)|]. rewrite Hs. eauto.
Qed.
(** The first loop: the induced subnetwork of each choice. *)
Lemma choice_induced n rem c : reachable n -> choice n rem c -> exists m, subnet n (Some <$> c) false = Ok m /\ induced n c m /\
  (fic n = false -> forall x, has_elem m 0 x <-> exists a, a ∈ iter_node_layers m /\ a !! 0 = Some x).
Proof.
  intros Hr Hc. destruct (C25_subnet n (Some <$> c) Hr) as (m & E & Hm & Ha & Hcf & Hrd & Hno & Hel & Hnl & H0).
  { rewrite fmap_length. apply Hc. }
  pose proof (reachable_good _ Hr) as Hg. pose proof (reachable_good _ Hm) as Hgm.
  exists m. split; [done|]. split; [|done]. split; [done|]. split; [done|]. split; [done|]. split; [|split; [|split]].
  - intros a b w La Lb Ca Cb. apply Hrd; by apply (sel_chosen n rem).
  - intros a b La Lb Hn. apply Hno; [done..|]. by rewrite !(sel_chosen n rem).
  - intros a. rewrite Hnl. split; intros [Ha1 Ha2]; (split; [done|]); apply (sel_chosen n rem c a) in Ha2; try done; by apply present_len.
  - intros k x Hk. rewrite Hel by done. by apply (sel_elem n rem).
Qed.
Section Write.
  Context (asp : nat) (noe : Z) (dir fi : bool) (V : nl -> nl -> Z) (HV : dir = false -> forall x y, V x y = V y x).
  Definition wops (T : list (nl * nl)) : list op := (fun q => OpSet (interleave (q.1) (q.2)) (V (q.1) (q.2))) <$> T.
  Definition hitT (T : list (nl * nl)) (x y : nl) : Prop := (x, y) ∈ T \/ dir = false /\ (y, x) ∈ T.
  Lemma write_loop T : forall g m, hist asp noe dir fi g m -> (forall a b, (a, b) ∈ T -> length a = S asp /\ length b = S asp) ->
    (forall x y, rd m x y = noe \/ rd m x y = V x y) ->
    exists m', build m (wops T) = Ok m' /\ hist asp noe dir fi (g ++ wops T) m' /\
      (forall x y, hitT T x y -> rd m' x y = V x y) /\ (forall x y, ~ hitT T x y -> rd m' x y = rd m x y).
  Proof.
    induction T as [|[a b] T IH]; intros g m Hm Hlen Hrd.
    { exists m. cbn. rewrite app_nil_r. split; [done|]. split; [done|]. split; [|done]. intros x y [Hx|[_ Hx]]; by apply elem_of_nil in Hx. }
    destruct (Hlen a b ltac:(left)) as [La Lb]. pose proof (write_of_interleave asp a b (V a b) La Lb) as Hw.
    destruct (do_op_ok asp noe dir fi g m (OpSet (interleave a b) (V a b)) Hm) as [m1 E1].
    { exists a, b, (V a b). split; [done|]. intros Hv _ _. destruct (Hrd a b); congruence. }
    pose proof (do_op_hist _ _ _ _ _ _ _ _ Hm E1) as Hm1.
    assert (Hrd1 : forall x y, rd m1 x y = if decide (hit dir a b x y) then V a b else rd m x y).
    { intros x y. rewrite (hist_refines _ _ _ _ _ _ Hm1), spec_run_app. cbn [fold_left]. unfold spec_step. rewrite Hw.
      destruct (decide _); [done|]. by rewrite (hist_refines _ _ _ _ _ _ Hm). }
    assert (HVh : forall x y, hit dir a b x y -> V a b = V x y) by (intros x y [[-> ->]|(Hd & -> & ->)]; [done|by apply HV]).
    destruct (IH (g ++ [OpSet (interleave a b) (V a b)]) m1 Hm1) as (m' & E & Hm' & R1 & R2).
    - intros c d Hcd. apply Hlen. by right.
    - intros x y. rewrite Hrd1. destruct (decide _) as [Hh|]; [right; by apply HVh|apply Hrd].
    - exists m'. split; [unfold wops; cbn; rewrite E1; exact E|]. split; [by rewrite <- app_assoc in Hm'|].
      assert (Hdec : forall x y, Decision (hitT T x y)) by (intros; unfold hitT; apply _). split.
      + intros x y Hx. destruct (Hdec x y) as [Ht|Ht]; [by apply R1|]. rewrite R2, Hrd1 by done. destruct (decide _) as [Hh|Hh]; [by apply HVh|]. exfalso.
        destruct Hx as [[[= -> ->]|Hx]%elem_of_cons|[Hd [[= -> ->]|Hx]%elem_of_cons]]; [apply Hh; by left|apply Ht; by left|apply Hh; by right|apply Ht; by right].
      + intros x y Hx. rewrite R2, Hrd1.
        * rewrite decide_False; [done|]. intros [[-> ->]|(Hd & -> & ->)]; apply Hx; [left; left|right; split; [done|left]].
        * intros [Ht|[Hd Ht]]; apply Hx; [left; by right|right; split; [done|by right]].
  Qed.
  Lemma write_elems T g m m' : hist asp noe dir fi g m -> hist asp noe dir fi (g ++ wops T) m' -> (forall a b, (a, b) ∈ T -> length a = S asp /\ length b = S asp) ->
    (forall k x, sl m' k x <-> sl m k x \/ exists a b, (a, b) ∈ T /\ (a !! k = Some x \/ b !! k = Some x)) /\
    (fi = false -> asp <> 0 -> forall a, a ∈ iter_node_layers m' <-> a ∈ iter_node_layers m \/ exists b, (a, b) ∈ T \/ (b, a) ∈ T).
  Proof.
    intros Hm Hm' Hlen. split.
    - intros k x. rewrite (hist_sl _ _ _ _ _ _ Hm'), (hist_sl _ _ _ _ _ _ Hm). setoid_rewrite elem_of_app. split.
      + intros (o & [Ho|Ho] & Hx); [left; eauto|right]. apply elem_of_list_fmap in Ho as ([a b] & -> & Hab). destruct (Hlen a b Hab).
        apply set_full_mentions in Hx; [|done..]. eauto.
      + intros [(o & Ho & Hx)|(a & b & Hab & Hx)]; [eauto|]. destruct (Hlen a b Hab). exists (OpSet (interleave a b) (V a b)). split; [right|by apply set_full_mentions].
        apply elem_of_list_fmap. by exists (a, b).
    - intros -> Ha c. pose proof (hist_present_nonfic _ _ _ _ _ Hm' Ha c) as H1. pose proof (hist_present_nonfic _ _ _ _ _ Hm Ha c) as H2. unfold present in *. rewrite H1, H2. setoid_rewrite elem_of_app. split.
      + intros (o & [Ho|Ho] & Hx); [left; eauto|right]. apply elem_of_list_fmap in Ho as ([a b] & -> & Hab). destruct (Hlen a b Hab).
        apply set_full_creates in Hx as [->| ->]; [..|done|done]; eauto.
      + intros [(o & Ho & Hx)|(b & [Hab|Hab])]; [eauto|..]; destruct (Hlen _ _ Hab).
        * exists (OpSet (interleave c b) (V c b)). split; [right; apply elem_of_list_fmap; by exists (c, b)|]. apply set_full_creates; auto.
        * exists (OpSet (interleave b c) (V b c)). split; [right; apply elem_of_list_fmap; by exists (b, c)|]. apply set_full_creates; auto.
  Qed.
End Write.
Lemma names_interleave asp a0 b0 a b : length a0 = S asp -> length b0 = S asp -> names_link asp (interleave a0 b0) a b <-> a = a0 /\ b = b0.
Proof.
  intros H1 H2. split.
  - intros Hn. destruct (names_link_inv _ _ _ _ Hn) as (Ha & Hb & [[_ E]|[Hl Hs]]).
    + apply interleave_inj in E as [-> ->]; [done|congruence..].
    + assert (E : interleave a0 b0 = interleave a b).
      { rewrite <- Hs. assert (length (interleave a0 b0) = 2 * S asp) as Hl2 by (rewrite interleave_length; lia). destruct (interleave a0 b0) as [|x [|y [|]]]; simpl in Hl, Hl2; try lia. done. }
      apply interleave_inj in E as [-> ->]; [done|congruence..].
  - intros [-> ->]. by apply names_link_full.
Qed.
Lemma pairs_of n T : good n -> (forall e, e ∈ T -> e ∈ edges n) -> exists PT : list (nl * nl),
  T = (fun q => (interleave (q.1) (q.2), rd n (q.1) (q.2))) <$> PT /\ forall a b, (a, b) ∈ PT -> length a = S (aspects n) /\ length b = S (aspects n).
Proof.
  intros Hg. pose proof (src_of_ok n Hg) as Hok. pose proof (so_edges _ _ _ Hok) as E. simpl in E. rewrite E.
  induction T as [|e T IH]; intros HT; [exists []; split; [done|]; by intros a b ?%elem_of_nil|].
  destruct IH as (PT & -> & HP); [intros; apply HT; by right|]. destruct (elem_of_list_fmap_2 _ _ _ (HT e ltac:(left))) as ([a b] & -> & Hab).
  exists ((a, b) :: PT). split; [done|]. intros c d [[= -> ->]|Hcd]%elem_of_cons; [|by apply HP]. destruct (so_end _ _ _ Hok a b Hab) as [H1 H2]. split; by apply present_len.
Qed.
Lemma choice_edges n rem c T sub : reachable n -> choice n rem c -> subnet n (Some <$> c) false = Ok sub -> (forall e, e ∈ T -> e ∈ edges n) ->
  exists m0 m, subnet sub (Some <$> c) true = Ok m0 /\ build m0 ((fun e : list name * Z => OpSet (e.1) (get_link sub (e.1))) <$> T) = Ok m /\ edge_sub n c T m.
Proof.
  intros Hr Hc Es HT. destruct (choice_induced n rem c Hr Hc) as (sub' & Es' & (Hsub & Hasp & Hcf & Hrd & Hno & Hnl & Hel) & Hz). rewrite Es in Es'. injection Es' as <-.
  pose proof (reachable_good _ Hr) as Hg. pose proof (reachable_good _ Hsub) as Hgs. pose proof Hcf as (C1 & C2 & C3).
  destruct (pairs_of n T Hg HT) as (PT & ET & HP).
  destruct (subnet_spec sub (Some <$> c) true Hgs) as (m0 & g & E0 & Hh & _ & R0 & S0 & N0); [rewrite fmap_length, Hasp; apply Hc|].
  assert (Hsym : directed sub = false -> forall x y, rd sub x y = rd sub y x) by (intros; by apply rd_sym).
  destruct (write_loop _ _ _ _ (rd sub) Hsym PT g m0 Hh) as (m & E & Hm & M1 & M2).
  { intros a b Hab. rewrite Hasp. by apply HP. }
  { intros x y. left. apply R0. by left. }
  exists m0, m. split; [done|]. split.
  { rewrite <- E. f_equal. rewrite ET, <- list_fmap_compose. apply list_fmap_ext. intros i [a b] Hab%elem_of_list_lookup_2. simpl. destruct (HP a b Hab). f_equal. rewrite get_link_interleave; [done|congruence]. }
  destruct (write_elems _ _ _ _ (rd sub) PT g m0 m Hh Hm) as [W1 W2]; [intros a b Hab; rewrite Hasp; by apply HP|].
  destruct (hist_config _ _ _ _ Hm) as (Hrm & Ham & D1 & D2 & D3).
  assert (Hin : forall a b, in_edges n T a b <-> hitT (directed sub) PT a b).
  { intros a b. unfold in_edges, hitT. rewrite ET, C2. split.
    - intros (e & ([a0 b0] & -> & Hab)%elem_of_list_fmap & He). destruct (HP _ _ Hab). simpl in He. destruct He as [He|[Hd He]]; apply names_interleave in He as [-> ->]; auto.
    - intros [Hab|[Hd Hab]]; destruct (HP _ _ Hab).
      + exists (interleave a b, rd n a b). split; [apply elem_of_list_fmap; by exists (a, b)|]. left. by apply names_link_full.
      + exists (interleave b a, rd n b a). split; [apply elem_of_list_fmap; by exists (b, a)|]. right. split; [done|]. by apply names_link_full. }
  assert (Hto : forall a, touched n T a <-> exists b, (a, b) ∈ PT \/ (b, a) ∈ PT).
  { intros a. unfold touched. setoid_rewrite Hin. unfold hitT. split.
    - intros (b & [[?|[_ ?]]|[?|[_ ?]]]); eauto.
    - intros (b & [?|?]); exists b; [left|right]; by left. }
  assert (Hf : fic n = true -> fic sub = true) by (intros; apply C3; by right).
  assert (Hf' : fic n = false -> fic sub = false /\ aspects sub <> 0).
  { intros Hfn. assert (aspects n <> 0) as H0 by (intros H0; apply (wfS_fi0 _ (proj1 Hg)) in H0; congruence). split; [|congruence].
    destruct (fic sub) eqn:Ef; [|done]. destruct (proj1 C3 eq_refl); congruence. }
  split; [done|]. split; [congruence|]. split.
  { split; [congruence|]. split; [congruence|]. rewrite D3, Ham, Hasp, C3, Hasp. tauto. }
  split; [|split; [|split]].
  - intros a b w La Lb Ca Cb He%Hin. rewrite <- (Hrd a b w) by done. rewrite !reads_rd by congruence. by rewrite M1.
  - intros a b La Lb Hn. apply reads_rd; [congruence..|]. assert (Decision (hitT (directed sub) PT a b)) as [Hh'|Hh'] by (unfold hitT; apply _).
    + rewrite M1 by done. assert (~ (chosen c a /\ chosen c b)) as Hn' by (intros [? ?]; apply Hn; split; [done|]; split; [done|by apply Hin]).
      apply (Hno a b La Lb) in Hn'. by apply reads_rd in Hn'; [|congruence..].
    + rewrite M2 by done. rewrite R0 by by left. congruence.
  - intros Hfn a. destruct (Hf' Hfn) as [F1 F2]. rewrite (W2 F1 F2), (N0 F1), Hto, Hnl.
    split; [tauto|]. intros [[Hp Hch]|?]; [|by right]. left. split; [done|].
    apply (sel_chosen n rem); [done| |done]. by apply present_len.
  - intros k x Hk. rewrite has_elem_sl, W1, S0. setoid_rewrite Hto. assert (fic sub = true \/ k <> 0) as Hk' by (destruct Hk; auto).
    assert (forall P Q, (((fic sub = true \/ k <> 0) /\ P) \/ fic sub = false /\ k = 0 /\ Q) <-> P) as -> by (intros P Q; split; [intros [[_ ?]|(? & ? & _)]; [done|destruct Hk'; congruence]|tauto]).
    rewrite <- has_elem_sl, Hel by done. split.
    + intros [[? _]|(a & b & Hab & [?|?])]; [auto|right; eauto..].
    + intros [Hs|(a & (b & [Hab|Hab]) & Hx)]; [left|right; eauto..]. split; [done|]. destruct Hs as (s & Hs & Hx). exists (Some s). by rewrite list_lookup_fmap, Hs.
Qed.

Lemma concat_singletons {A} (l : list A) : concat ((fun x => [x]) <$> l) = l.
Proof. induction l as [|x l IH]; [done|]. rewrite fmap_cons. cbn [concat app]. by rewrite IH. Qed.
Lemma wrap_rmapM {A B} (f : A -> res B) (l : list A) L : rmapM f l = Ok L -> rmapM (fun x => let? y := f x in Ok [y]) l = Ok ((fun y => [y]) <$> L).
Proof.
  revert L. induction l as [|x l IH]; intros L; [by intros [= <-]|]. cbn [rmapM]. destruct (f x) as [y|]; [|done]. cbn [rbind].
  destruct (rmapM f l) as [L'|] eqn:E; [|done]. intros [= <-]. rewrite (IH L' eq_refl). done.
Qed.
Lemma rem_ok asp rem : (forall a, a ∈ rem -> a <= asp) -> forallb (fun a => bool_decide (a <= asp)%nat) rem = true.
Proof. intros H. apply forallb_forall. intros a Ha. apply bool_decide_eq_true. by apply H, elem_of_list_In. Qed.

(** ** C74 *)
Theorem C74_induced n rem : reachable n -> (forall a, a ∈ rem -> a <= aspects n) ->
  exists C L, subnet_iter n rem false = Ok L /\ each_once (choice n rem) same_choice C /\ Forall2 (induced n) C L.
Proof.
  intros Hr Hrem. pose proof (choices_once n rem (reachable_good _ Hr)) as HC. set (C := iter_choices (slices n) rem) in *.
  destruct (rmapM_choice (fun c => subnet n (Some <$> c) false) (induced n) C) as (L & HL & HI).
  { intros c Hc. destruct (choice_induced n rem c Hr) as (m & E & Hi & _); [by apply HC|]. by exists m. }
  exists C, L. split; [|done]. unfold subnet_iter. rewrite rem_ok by done. fold C.
  rewrite (wrap_rmapM _ _ _ HL). cbn [rbind]. by rewrite concat_singletons.
Qed.
Theorem C74_edge_removal n rem : reachable n -> (forall a, a ∈ rem -> a <= aspects n) ->
  exists CT L, subnet_iter n rem true = Ok L /\
    each_once (fun p => choice n rem (p.1) /\ forall e, e ∈ p.2 -> e ∈ edges n) (fun p q => same_choice (p.1) (q.1) /\ same_set (p.2) (q.2)) CT /\
    Forall2 (fun p m => edge_sub n (p.1) (p.2) m) CT L.
Proof.
  intros Hr Hrem. pose proof (reachable_good _ Hr) as Hg. pose proof (choices_once n rem Hg) as HC. set (C := iter_choices (slices n) rem) in *.
  pose proof (all_once (edges n) (NoDup_edges n Hg)) as HT. set (TT := all_combinations (edges n)) in *.
  exists (C ≫= fun c => (fun T => (c, T)) <$> TT).
  destruct (rmapM_choice (fun c => let? sub := subnet n (Some <$> c) false in
          rmapM (fun es : list (list name * Z) =>
            let? m := subnet sub (Some <$> c) true in
            build m ((fun e => OpSet (e.1) (get_link sub (e.1))) <$> es)) TT) (fun c Ms => Forall2 (fun T m => edge_sub n c T m) TT Ms) C) as (Ls & HL & HI).
  { intros c Hc. apply HC in Hc. destruct (choice_induced n rem c Hr Hc) as (sub & Es & _). rewrite Es. cbn [rbind].
    apply rmapM_choice. intros T HTT. destruct (choice_edges n rem c T sub Hr Hc Es) as (m0 & m & E0 & E1 & He); [by apply HT|].
    exists m. rewrite E0. cbn [rbind]. by rewrite E1. }
  exists (concat Ls). split; [|split].
  - unfold subnet_iter. rewrite rem_ok by done. fold C TT. by rewrite HL.
  - exact (once_pairs _ _ _ _ C TT HC HT).
  - clear -HI. induction HI as [|c Ms C Ls H HI IH]; [constructor|]. rewrite bind_cons. cbn [concat]. apply Forall2_app; [|done].
    apply Forall2_fmap_l. simpl. done.
Qed.
Theorem C74_wrong_aspect n rem redges a : a ∈ rem -> aspects n < a -> subnet_iter n rem redges = Err AssertionError.
Proof.
  intros Ha Hl. unfold subnet_iter. assert (forallb (fun a => bool_decide (a <= aspects n)%nat) rem = false) as ->; [|done].
  apply not_true_iff_false. rewrite forallb_forall. intros H. specialize (H a (proj1 (elem_of_list_In _ _) Ha)). apply bool_decide_eq_true in H. lia.
Qed.
(** ** Multiplex networks *)
Definition mchoice (p : mpx) (rem : list nat) (c : list (list name)) : Prop := choice_of (maspects p) (mhas p) rem c.
(** [q] is the subnetwork of [p] induced by [c]. *)
Definition minduced cs dir noe fi (p : mpx) (c : list (list name)) (q : mpx) : Prop :=
  (exists g, mhist cs dir noe fi g q) /\
  (forall a, mexists q a <-> mexists p a /\ chosen c a) /\
  (forall k x, fi = true \/ k <> 0 -> mhas q k x <-> exists s, c !! k = Some s /\ x ∈ s) /\
  (forall a b, mexists q a -> mexists q b -> reads_alike p a b q a b) /\
  (forall l x y, mexists q (nl_of x l) -> mexists q (nl_of y l) -> l ∈ mlayers q -> agetitem q l [x; y] = agetitem p l [x; y]).
Lemma mchoices_once p rem : pwf p -> each_once (mchoice p rem) same_choice (iter_choices (mslices p) rem).
Proof. intros Hw. apply choices_once_gen; [apply (pw_len p Hw)|apply (pw_nd p Hw)|]. intros k x. by rewrite <- psl_mhas. Qed.
Lemma msel_chosen p rem c a : mchoice p rem c -> sel_nl (Some <$> c) a <-> chosen c a.
Proof.
  intros [Hc _]. unfold sel_nl, chosen. setoid_rewrite list_lookup_fmap. split.
  - intros H k x s Hx Hs. apply (H k x (Some s) Hx). by rewrite Hs.
  - intros H k x o Hx Ho. destruct (c !! k) as [s|] eqn:Hs; [|done]. injection Ho as <-. by apply (H k).
Qed.
Lemma mchoice_induced cs dir noe fi h p rem c : mhist cs dir noe fi h p -> 1 <= length cs -> (forall m, CNet m ∉ cs) -> mchoice p rem c ->
  exists q, msubnet p (Some <$> c) false = Ok q /\ minduced cs dir noe fi p c q.
Proof.
  intros Hh H1 Hn Hc. pose proof (mhist_inv _ _ _ _ _ _ Hh) as Hp.
  destruct (C69_subnet cs dir noe fi h p (Some <$> c) Hh H1 Hn) as (q & g & E & Hq & (S1 & S2 & S3) & R1 & R2).
  { rewrite fmap_length, (proj1 Hc). by rewrite (pinv_masp _ _ _ _ _ _ Hp). }
  { intros k l x Hl Hx. rewrite list_lookup_fmap in Hl. destruct (c !! S k) as [s|] eqn:Hs; [|done]. injection Hl as <-. by apply (proj2 Hc (S k) s Hs). }
  exists q. split; [done|]. split; [by exists g|]. split; [|split; [|done]].
  - intros a. rewrite S3. by rewrite (msel_chosen p rem) by done.
  - intros k x Hk. rewrite S1 by (by rewrite (pi_fic _ _ _ _ _ _ Hp)). rewrite list_lookup_fmap. split.
    + intros [_ (o & Ho & Hx)]. destruct (c !! k) as [s|]; [|done]. injection Ho as <-. eauto.
    + intros (s & Hs & Hx). split; [by apply (proj2 Hc k s)|]. rewrite Hs. eauto.
Qed.
Theorem C74_multiplex_induced cs dir noe fi h p rem : mhist cs dir noe fi h p -> 1 <= length cs -> (forall m, CNet m ∉ cs) -> (forall a, a ∈ rem -> a <= length cs) ->
  exists C L, msubnet_iter p rem false = Ok L /\ each_once (mchoice p rem) same_choice C /\ Forall2 (minduced cs dir noe fi p) C L.
Proof.
  intros Hh H1 Hn Hrem. pose proof (mhist_inv _ _ _ _ _ _ Hh) as Hp. pose proof (mchoices_once p rem (pi_wf _ _ _ _ _ _ Hp)) as HC. set (C := iter_choices (mslices p) rem) in *.
  destruct (rmapM_choice (fun c => msubnet p (Some <$> c) false) (minduced cs dir noe fi p) C) as (L & HL & HI).
  { intros c Hc. apply (mchoice_induced cs dir noe fi h p rem); try done. by apply HC. }
  exists C, L. split; [|done]. unfold msubnet_iter. rewrite rem_ok by (by rewrite (pinv_masp _ _ _ _ _ _ Hp)). fold C.
  rewrite (wrap_rmapM _ _ _ HL). cbn [rbind]. by rewrite concat_singletons.
Qed.
Lemma obind_ok {S A B} (m : out S A) (f : S -> A -> out S B) s r : obind m f = (s, Ok r) -> exists s1 x, m = (s1, Ok x) /\ f s1 x = (s, Ok r).
Proof. destruct m as [s1 [x|e]]; simpl; [eauto|done]. Qed.
Lemma mset_within p e a b w p' : length (e : list name) = 2 * S (maspects p) -> names_link (maspects p) e a b -> mdo p (MSet e w) = Ok p' -> differ_at 0 a b.
Proof.
  intros Hl Hn. destruct (names_link_inv _ _ _ _ Hn) as (La & Lb & H). assert (e = interleave a b) as ->.
  { destruct H as [[_ ->]|[Hl' Hs]]; [done|]. rewrite <- Hs. destruct e as [|x [|y [|]]]; simpl in Hl, Hl'; try lia. done. }
  unfold mdo. cbn [mstep]. destruct (psetitem p (interleave a b) w) as [p1 [u|]] eqn:E; [|done]. intros _. unfold psetitem, psetitem_link in E. rewrite decide_True in E by done.
  rewrite link_to_nodes_interleave in E by congruence. apply obind_ok in E as (s1 & x1 & _ & E). apply obind_ok in E as (s2 & x2 & _ & E).
  unfold pset_link in E. rewrite link_to_nodes_interleave in E by congruence. apply inter_aspects_single; [congruence|].
  destruct (inter_aspects a b) as [|[|d] [|]]; done.
Qed.
(** With [remove_edges=True] coupling edges are removed and written like other edges, which
    raises an exception: no multiplex network with a coupling edge can be iterated over. *)
Theorem C74_multiplex_coupling_edge_raises cs dir fi h p rem a b L : mhist cs dir 0 fi h p -> 1 <= length cs -> (forall m, CNet m ∉ cs) -> faithful cs fi p -> loopless p ->
  mlink p a b -> tail a <> tail b -> msubnet_iter p rem true <> Ok L.
Proof.
  intros Hh H1 Hn Hf Hlo (Ea & Eb & Hab) Htl HL. pose proof (mhist_inv _ _ _ _ _ _ Hh) as Hp. pose proof (pi_wf _ _ _ _ _ _ Hp) as Wp. pose proof (pinv_masp _ _ _ _ _ _ Hp) as Ap.
  assert (Hall : mchoice p rem (mslices p)).
  { split; [apply (pw_len p Wp)|]. intros k s Hs. split; [|split].
    - intros x Hx. apply psl_mhas. by exists s.
    - intros _ ->. destruct (mexists_psl p a Wp Ea) as (La & Pa & _). destruct (lookup_lt_is_Some_2 a k) as [x Hx]; [rewrite La, <- (pw_len p Wp); by eapply lookup_lt_Some|].
      destruct (Pa k x Hx) as (s & Hs' & Hxs). rewrite Hs in Hs'. injection Hs' as <-. by apply elem_of_nil in Hxs.
    - intros _ x (s' & Hs' & Hx)%psl_mhas. rewrite Hs in Hs'. by injection Hs' as <-. }
  pose proof (mchoices_once p rem Wp) as (_ & HC1 & HC2 & _). destruct (HC2 _ Hall) as (c & Hc & Hsame). pose proof (HC1 c Hc) as Hch.
  destruct (mchoice_induced cs dir 0 fi h p rem c Hh H1 Hn Hch) as (q & Eq & [g Hq] & Q1 & _ & Q3 & Q4).
  pose proof (mhist_inv _ _ _ _ _ _ Hq) as Iq. pose proof (pi_wf _ _ _ _ _ _ Iq) as Wq. pose proof (pinv_masp _ _ _ _ _ _ Iq) as Aq.
  assert (Hex : forall d, mexists p d -> mexists q d).
  { intros d Hd. apply Q1. split; [done|]. intros k x s Hx Hs. destruct (mexists_psl p d Wp Hd) as (_ & Pd & _). destruct (Pd k x Hx) as (s0 & Hs0 & Hxs).
    destruct (Forall2_lookup_lr _ _ _ k _ _ Hsame Hs0 Hs x) as [Hx1 _]. by apply Hx1. }
  assert (Hfq : faithful cs fi q).
  { destruct Hf as [(? & ? & Hok)|?]; [left|by right]. split; [done|]. split; [done|]. intros d [Hd _]%Q1. by apply Hok. }
  assert (Hlq : mlink q a b).
  { split; [auto|]. split; [auto|]. destruct Hab as (w & Hw & Hne). exists w. rewrite (pi_noe _ _ _ _ _ _ Iq), <- (pi_noe _ _ _ _ _ _ Hp). split; [|done]. by apply (Q3 a b); auto. }
  assert (Hloq : loopless q).
  { intros d Hd. destruct (mexists_psl q d Wq Hd) as (Ld & _ & Md & _). destruct (Md ltac:(lia)) as (m & Em & _). rewrite lkey_player in Em by lia.
    assert (d <> []) as Hd0 by (by destruct d). rewrite Q4; [|by rewrite nl_of_player..|].
    - rewrite Aq, <- Ap. apply Hlo. by apply Q1.
    - apply mlayers_form; eauto. }
  assert (exists E e d1 d2, medges q = Ok E /\ NoDup E /\ e ∈ E /\ medge_tuple q d1 d2 e /\ ~ differ_at 0 d1 d2) as (E & e & d1 & d2 & EE & HE & He & Ht & Hnd).
  { assert (forall x y, tail x <> tail y -> ~ differ_at 0 x y) as Hdd.
    { intros [|x xs] [|y ys] Hxy Hd; simpl in *; try (by destruct Hd as (? & ? & ? & ?)). apply differ_at_0 in Hd as [_ ->]. done. }
    destruct dir.
    - destruct (C56_directed_edges_exact cs fi g q Hq Hfq Hloq) as (E & EE & _ & HE & Hin). destruct Hlq as (Ha & Hb & Hk). pose proof Hk as (w & Hw & Hne).
      destruct (mexists_psl q a Wq Ha) as (La & _). destruct (mexists_psl q b Wq Hb) as (Lb & _).
      assert (medge_tuple q a b (interleave a b, w)) as Ht by (split; [simpl; rewrite interleave_length; lia|]; split; [by apply names_link_full|done]).
      exists E, (interleave a b, w), a, b. split; [done|]. split; [done|]. split; [|auto]. apply Hin. exists a, b. done.
    - destruct (C56_undirected_edges_exact cs fi g q Hq Hfq Hloq) as (E & EE & _ & HE & _ & Hin & _). destruct (Hin a b Hlq) as (e & He & [Ht|Ht]).
      + exists E, e, a, b. auto 10.
      + exists E, e, b, a. auto 10. }
  unfold msubnet_iter in HL. destruct (forallb _ rem); [|done]. match type of HL with rbind ?x _ = _ => destruct x as [Ls|] eqn:EL; [|done] end.
  apply Supra.rmapM_Forall2 in EL. apply elem_of_list_lookup in Hc as [i Hi]. destruct (Forall2_lookup_l _ _ _ i c EL Hi) as (Y & _ & HY).
  cbn beta in HY. rewrite Eq in HY. cbn [rbind] in HY. rewrite EE in HY. cbn [rbind] in HY. apply Supra.rmapM_Forall2 in HY.
  destruct (all_once E HE) as (_ & _ & HA & _). destruct (HA [e]) as (y & Hy & Hsy); [by intros x ->%elem_of_list_singleton|].
  apply elem_of_list_lookup in Hy as [j Hj]. destruct (Forall2_lookup_l _ _ _ j y HY Hj) as (X & _ & HZ). cbn beta in HZ.
  destruct (C69_subnet_nolinks cs dir 0 fi g q (Some <$> c) Hq H1 Hn) as (q0 & g0 & E0 & Hq0 & _); [rewrite fmap_length, (proj1 Hch); congruence|]. rewrite E0 in HZ. cbn [rbind] in HZ.
  pose proof (pinv_masp _ _ _ _ _ _ (mhist_inv _ _ _ _ _ _ Hq0)) as Aq0.
  destruct y as [|e' y]; [assert (e ∈ ([] : list (list name * Z))) as Hy0 by (apply Hsy; left); by apply elem_of_nil in Hy0|].
  assert (e' = e) as -> by (apply elem_of_list_singleton, Hsy; left). cbn [rfold] in HZ. destruct (pgetitem q (e.1)) as [w|]; [|done]. cbn [rbind] in HZ.
  destruct (mdo q0 (MSet (e.1) w)) as [q1|] eqn:E1; [|done]. apply Hnd. destruct Ht as (T1 & T2 & _). rewrite Aq, <- Aq0 in T1, T2. by apply (mset_within _ _ _ _ _ _ T1 T2 E1).
  Unshelve. all: exact 0.
Qed.

(** ** Examples *)
(** An undirected one-aspect network with a link between the layers. *)
Definition ex74 := run (new_net 1 0 false false) [OpSet [A1; A2; La; Lb] 3; OpSet [A2; A3; La; La] 5].
Example C74_example : reachable ex74 /\ (forall a, a ∈ [0; 1] -> a <= aspects ex74) /\
  exists L M m1 m2, subnet_iter ex74 [0; 1] false = Ok L /\ length L = 21 /\ subnet_iter ex74 [1] true = Ok M /\ length M = 12 /\
    L !! 9 = Some m1 /\ net_nodes m1 = [A1; A2] /\ edges m1 = [] /\
    M !! 11 = Some m2 /\ edges m2 = edges ex74 /\ length (edges ex74) = 2.
Proof.
  split; [exists 1, 0%Z, false, false; eexists; apply run_hist0|]. split; [by intros a [->|[->|?%elem_of_nil]%elem_of_cons]%elem_of_cons; vm_compute; lia|].
  eexists _, _, _, _. split_and!; by vm_compute.
Qed.
(** The node removed by the choice of nodes is back, without its link, once an edge that
    ends in it is "kept", and the same network is yielded twice. *)
Theorem C74_removed_nodes_reappear_refuted : exists n L I i1 m m', reachable n /\ subnet_iter n [0] false = Ok I /\ length I = 3 /\ I !! 0 = Some i1 /\ net_nodes i1 = [A1] /\
  subnet_iter n [0] true = Ok L /\ length L = 6 /\ L !! 1 = Some m /\ net_nodes m = [A1; A2] /\ edges m = [] /\ L !! 3 = Some m' /\ net_eq m m' = Ok true.
Proof.
  exists (run (new_net 0 0 false true) [OpSet [A1; A2] 3]). eexists _, _, _, _, _. split; [exists 0, 0%Z, false, true; eexists; apply run_hist0|]. split_and!; by vm_compute.
Qed.
Lemma mexists_by p a : match miter_node_layers p with Ok L => bool_decide (a ∈ L) | _ => false end = true -> mexists p a.
Proof. unfold mexists. destruct (miter_node_layers p) as [L|]; [|done]. intros Ha%bool_decide_eq_true. by exists L. Qed.
(** A multiplex network that is not fully interconnected, and the undirected one of C56
    with a coupling edge between two of its layers. *)
Example C74_multiplex_example : mhist [CCat 2; COrd 3] true 7 false ex68.1 ex68.2 /\
  (exists L, msubnet_iter ex68.2 [0; 2] false = Ok L /\ length L = 49) /\
  mhist [CCat 2; COrd 3] false 0 true exf.1 exf.2 /\ faithful [CCat 2; COrd 3] true exf.2 /\ loopless exf.2 /\ mlink exf.2 [n1; sa; n1] [n1; sb; n1].
Proof.
  split; [apply mcalls_hist|]. split; [eexists; split; by vm_compute|]. split; [apply exf_hist|]. split; [apply C56_example_ordinal|]. split; [apply C56_example_ordinal|].
  split; [apply mexists_by; by vm_compute|]. split; [apply mexists_by; by vm_compute|]. exists 2%Z. split; [|by vm_compute]. apply mreads_pair; by vm_compute.
Qed.
Print Assumptions C74_induced.
Print Assumptions C74_edge_removal.
Print Assumptions C74_wrong_aspect.
Print Assumptions C74_removed_nodes_reappear_refuted.
Print Assumptions C74_multiplex_induced.
Print Assumptions C74_multiplex_coupling_edge_raises.
