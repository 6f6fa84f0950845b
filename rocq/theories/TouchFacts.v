(** * Enumeration of connected node sets by growing *)
From stdpp Require Import prelude relations.
From Verif Require Import Base Net NetSpec NetFacts NetHist NetIter NetEdges Supra Samp SampFacts EsuRun Graphlet GraphletSpec GraphletFacts.
Local Open Scope nat_scope.

Lemma same_setb_iff s t : same_setb s t = true <-> same_set s t.
Proof.
  unfold same_setb, same_set. rewrite andb_true_iff, !forallb_forall. setoid_rewrite <- elem_of_list_In. setoid_rewrite bool_decide_eq_true. done.
Qed.
Lemma same_set_refl s : same_set s s.
Proof. by split. Qed.
Lemma same_set_sym s t : same_set s t -> same_set t s.
Proof. intros [? ?]. by split. Qed.
Lemma same_set_trans s t u : same_set s t -> same_set t u -> same_set s u.
Proof. intros [H1 H2] [H3 H4]. split; auto. Qed.
Lemma same_set_perm s t : NoDup s -> NoDup t -> same_set s t -> s ≡ₚ t.
Proof. intros Hs Ht [H1 H2]. apply NoDup_Permutation; [done..|]. intros x. split; auto. Qed.

Definition sets_in (s : list name) (L : list (list name)) : Prop := exists t, t ∈ L /\ same_set s t.
Definition apart (L : list (list name)) : Prop := forall i j s t, L !! i = Some s -> L !! j = Some t -> same_set s t -> i = j.
Definition addall (c l : list (list name)) : list (list name) := foldl (fun c s => add_set s c) c l.

Lemma add_set_in s c u : sets_in u (add_set s c) <-> sets_in u c \/ same_set u s.
Proof.
  unfold add_set. destruct (existsb (same_setb s) c) eqn:E.
  - split; [by left|]. intros [?|Hu]; [done|]. apply existsb_exists in E as (t & Ht & Es). apply elem_of_list_In in Ht. exists t. split; [done|]. eapply same_set_trans; [done|]. by apply same_setb_iff.
  - split.
    + intros (t & [Ht| ->%elem_of_list_singleton]%elem_of_app & Hu); [left; by exists t|by right].
    + intros [(t & Ht & Hu)|Hu]; [exists t|exists s]; (split; [set_solver|done]).
Qed.
Lemma add_set_elem s c t : t ∈ add_set s c -> t ∈ c \/ t = s.
Proof. unfold add_set. destruct (existsb _ _); [by left|]. intros [?| ->%elem_of_list_singleton]%elem_of_app; auto. Qed.
Lemma add_set_apart s c : apart c -> apart (add_set s c).
Proof.
  unfold add_set. destruct (existsb (same_setb s) c) eqn:E; [done|]. intros Hc.
  assert (forall i t, c !! i = Some t -> same_set s t -> False) as Hno.
  { intros i t Hi Hs. apply elem_of_list_lookup_2 in Hi. apply not_true_iff_false in E. apply E. apply existsb_exists. exists t. split; [by apply elem_of_list_In|]. by apply same_setb_iff. }
  intros i j a b Hi Hj Hab. apply lookup_app_Some in Hi as [Hi|[Hi Hi']], Hj as [Hj|[Hj Hj']].
  - by apply (Hc i j a b).
  - apply list_lookup_singleton_Some in Hj' as [_ <-]. exfalso. apply (Hno i a Hi). by apply same_set_sym.
  - apply list_lookup_singleton_Some in Hi' as [_ <-]. exfalso. by apply (Hno j b Hj).
  - apply list_lookup_singleton_Some in Hi' as [? _], Hj' as [? _]. lia.
Qed.
Lemma addall_spec l : forall c, (apart c -> apart (addall c l)) /\ (forall u, sets_in u (addall c l) <-> sets_in u c \/ sets_in u l) /\ (forall t, t ∈ addall c l -> t ∈ c \/ t ∈ l).
Proof.
  induction l as [|s l IH]; intros c.
  - split; [done|]. split; [|by left]. intros u. split; [by left|]. intros [?|(t & Ht & _)]; [done|]. by apply elem_of_nil in Ht.
  - destruct (IH (add_set s c)) as (I1 & I2 & I3). unfold addall in *. cbn [foldl]. split_and!.
    + intros Hc. apply I1. by apply add_set_apart.
    + intros u. rewrite I2, add_set_in. split.
      * intros [[?|?]|(t & Ht & Hu)]; [by left|right; exists s; split; [left|done]|right; exists t; split; [by right|done]].
      * intros [?|(t & [->|Ht]%elem_of_cons & Hu)]; [by left; left|by left; right|right; by exists t].
    + intros t Ht. apply I3 in Ht as [Ht|Ht]; [|right; by right]. apply add_set_elem in Ht as [?| ->]; [by left|right; left].
Qed.

(** ** the candidates of one round *)
Definition cands1 (nb : name -> list name) (bad p : list name) : list (list name) :=
  p ≫= fun x => omap (fun y => if decide (y ∈ p \/ y ∈ bad) then None else Some (sadd y p)) (nb x).
Lemma grow_sets'_addall nb bad c p : grow_sets' nb bad c p = addall c (cands1 nb bad p).
Proof.
  unfold grow_sets', cands1.
  assert (forall q c, foldl (fun c x => foldl (fun c y => if decide (y ∈ p \/ y ∈ bad) then c else add_set (sadd y p) c) c (nb x)) c q =
    addall c (q ≫= fun x => omap (fun y => if decide (y ∈ p \/ y ∈ bad) then None else Some (sadd y p)) (nb x))) as H; [|apply H]. clear c.
  induction q as [|x q IH]; intros c; [done|]. cbn [foldl]. rewrite IH. change ((x :: q) ≫= ?f) with (f x ++ (q ≫= f)). unfold addall. rewrite foldl_app. f_equal. clear.
  revert c. induction (nb x) as [|y l IH]; intros c; [done|]. cbn [foldl omap list_omap]. destruct (decide _); [apply IH|]. cbn [foldl]. apply IH.
Qed.
Lemma grow_all nb bad ps c : foldl (grow_sets' nb bad) c ps = addall c (ps ≫= cands1 nb bad).
Proof.
  revert c. induction ps as [|p ps IH]; intros c; [done|]. cbn [foldl]. rewrite IH, grow_sets'_addall. change ((p :: ps) ≫= ?f) with (f p ++ (ps ≫= f)). unfold addall. by rewrite foldl_app.
Qed.
Lemma grow_sets_nil nb c p : grow_sets nb c p = grow_sets' nb [] c p.
Proof.
  unfold grow_sets, grow_sets'.
  assert (forall q c, foldl (fun c x => foldl (fun c y => if decide (y ∈ p) then c else add_set (sadd y p) c) c (nb x)) c q =
    foldl (fun c x => foldl (fun c y => if decide (y ∈ p \/ y ∈ []) then c else add_set (sadd y p) c) c (nb x)) c q) as H; [|apply H]. clear c.
  induction q as [|x q IH]; intros c; [done|]. cbn [foldl]. rewrite IH. f_equal. clear.
  revert c. induction (nb x) as [|y l IH]; intros c; [done|]. cbn [foldl]. rewrite IH. f_equal. destruct (decide (y ∈ p)), (decide (y ∈ p \/ y ∈ [])) as [[?|Hn]|Hn]; try done; [by destruct Hn; left|by apply elem_of_nil in Hn].
Qed.
Lemma elem_of_cands nb bad ps t : t ∈ ps ≫= cands1 nb bad <-> exists p x y, p ∈ ps /\ x ∈ p /\ y ∈ nb x /\ y ∉ p /\ y ∉ bad /\ t = sadd y p.
Proof.
  rewrite elem_of_list_bind. split.
  - intros (p & Ht & Hp). unfold cands1 in Ht. apply elem_of_list_bind in Ht as (x & Ht & Hx). apply elem_of_list_omap in Ht as (y & Hy & E). destruct (decide _) as [|Hn]; [done|]. injection E as <-. exists p, x, y.
    split_and!; try done; intros ?; apply Hn; auto.
  - intros (p & x & y & Hp & Hx & Hy & H1 & H2 & ->). exists p. split; [|done]. apply elem_of_list_bind. exists x. split; [|done]. apply elem_of_list_omap. exists y. split; [done|]. rewrite decide_False; [done|]. intros [?|?]; done.
Qed.

Section grow.
Context (nb : name -> list name) (bad : list name) (x0 : name).
Hypothesis nb_sym : forall x y, y ∈ nb x -> x ∈ nb y.
Hypothesis x0_ok : x0 ∉ bad.
Notation R := (fun a b => b ∈ nb a).
(** the sets of [j] elements wanted *)
Definition want (j : nat) (s : list name) : Prop := NoDup s /\ x0 ∈ s /\ length s = j /\ (forall z, z ∈ s -> z ∉ bad) /\ set_connected R s.

Lemma connected_add s y z : set_connected R s -> z ∈ s -> y ∈ nb z -> set_connected R (sadd y s).
Proof.
  intros Hs Hz Hy.
  assert (forall a b, rtc (fun a b => R a b /\ a ∈ s /\ b ∈ s) a b -> rtc (fun a b => R a b /\ a ∈ sadd y s /\ b ∈ sadd y s) a b) as Hup.
  { intros a b. apply rtc_subrel. intros u v (H1 & H2 & H3). split; [done|]. split; apply elem_of_sadd; by right. }
  assert (rtc (fun a b => R a b /\ a ∈ sadd y s /\ b ∈ sadd y s) z y) as Hzy. { apply rtc_once. split; [done|]. split; apply elem_of_sadd; auto. }
  assert (rtc (fun a b => R a b /\ a ∈ sadd y s /\ b ∈ sadd y s) y z) as Hyz. { apply rtc_once. split; [by apply nb_sym|]. split; apply elem_of_sadd; auto. }
  intros a b [->|Ha]%elem_of_sadd [->|Hb]%elem_of_sadd.
  - constructor.
  - etransitivity; [exact Hyz|]. apply Hup. by apply Hs.
  - etransitivity; [|exact Hzy]. apply Hup. by apply Hs.
  - apply Hup. by apply Hs.
Qed.
Lemma want_add j s y z : want j s -> z ∈ s -> y ∈ nb z -> y ∉ s -> y ∉ bad -> want (S j) (sadd y s).
Proof.
  intros (H1 & H2 & H3 & H4 & H5) Hz Hy Hys Hyb. split_and!.
  - by apply NoDup_sadd.
  - apply elem_of_sadd. by right.
  - unfold sadd. rewrite decide_False by done. rewrite app_length. cbn. lia.
  - intros w [->|Hw]%elem_of_sadd; auto.
  - by apply (connected_add s y z).
Qed.
Lemma crossing (s t : list name) w : set_connected R s -> x0 ∈ s -> w ∈ s -> x0 ∈ t -> w ∉ t -> exists a b, a ∈ t /\ a ∈ s /\ b ∈ s /\ b ∉ t /\ b ∈ nb a.
Proof.
  intros Hs Hx Hw Hxt Hwt. pose proof (Hs x0 w Hx Hw) as Hp. revert Hxt Hwt. clear -Hp. induction Hp as [|a b c (Hab & Ha & Hb) _ IH]; intros Hat Hct; [done|].
  destruct (decide (b ∈ t)); [by apply IH|]. by exists a, b.
Qed.
(** every wanted set grows out of the singleton through wanted subsets *)
Lemma chain m s : want m s -> forall j, 1 <= j -> j <= m -> exists t, want j t /\ forall z, z ∈ t -> z ∈ s.
Proof.
  intros (H1 & H2 & H3 & H4 & H5). induction j as [|j IH]; intros Hj Hm; [lia|]. destruct j as [|j].
  - exists [x0]. split; [|intros z ->%elem_of_list_singleton; done]. split_and!; [apply NoDup_singleton|left|done|by intros z ->%elem_of_list_singleton|]. intros a b ->%elem_of_list_singleton ->%elem_of_list_singleton. constructor.
  - destruct IH as (t & Ht & Hts); [lia..|]. pose proof Ht as (T1 & T2 & T3 & T4 & T5).
    assert (exists w, w ∈ s /\ w ∉ t) as (w & Hw & Hwt).
    { destruct (decide (Exists (fun w => w ∉ t) s)) as [(w & ? & ?)%Exists_exists|Hn]; [by exists w|]. exfalso.
      assert (length s <= length t); [|lia]. apply submseteq_length, NoDup_submseteq; [done|]. intros w Hw. destruct (decide (w ∈ t)); [done|]. exfalso. apply Hn. apply Exists_exists. by exists w. }
    destruct (crossing s t w H5 H2 Hw T2 Hwt) as (a & b & Ha & _ & Hb & Hbt & Hab). exists (sadd b t). split; [by apply (want_add _ _ b a); auto|]. intros z [->|Hz]%elem_of_sadd; auto.
Qed.
Lemma want_pred j s : 1 <= j -> want (S j) s -> exists t a b, want j t /\ a ∈ t /\ b ∈ nb a /\ b ∉ t /\ b ∉ bad /\ same_set s (sadd b t).
Proof.
  intros Hj Hs. pose proof Hs as (H1 & H2 & H3 & H4 & H5). destruct (chain (S j) s Hs j) as (t & Ht & Hts); [lia..|]. pose proof Ht as (T1 & T2 & T3 & T4 & T5).
  assert (exists w, w ∈ s /\ w ∉ t) as (w & Hw & Hwt).
  { destruct (decide (Exists (fun w => w ∉ t) s)) as [(w & ? & ?)%Exists_exists|Hn]; [by exists w|]. exfalso.
    assert (length s <= length t); [|lia]. apply submseteq_length, NoDup_submseteq; [done|]. intros w Hw. destruct (decide (w ∈ t)); [done|]. exfalso. apply Hn. apply Exists_exists. by exists w. }
  destruct (crossing s t w H5 H2 Hw T2 Hwt) as (a & b & Ha & _ & Hb & Hbt & Hab). exists t, a, b. split_and!; try done; [by apply H4|].
  assert (sadd b t ≡ₚ s) as Hp.
  { apply submseteq_Permutation_length_le; [unfold sadd; rewrite decide_False by done; rewrite app_length; cbn; lia|]. apply NoDup_submseteq; [by apply NoDup_sadd|]. intros z [->|Hz]%elem_of_sadd; auto. }
  split; intros z Hz; [rewrite Hp|rewrite <- Hp]; done.
Qed.
Lemma want_same j s t : want j s -> NoDup t -> same_set s t -> want j t.
Proof.
  intros (H1 & H2 & H3 & H4 & H5) Ht Hst. pose proof (same_set_perm s t H1 Ht Hst) as Hp. split_and!; [done|by rewrite <- Hp|by rewrite <- Hp| |].
  - intros z. rewrite <- Hp. apply H4.
  - intros a b Ha Hb. rewrite <- Hp in Ha, Hb. eapply rtc_subrel; [|by apply H5]. intros u v (? & ? & ?). by rewrite <- Hp.
Qed.

(** soundness and completeness of one round *)
Lemma round_ok ps (A : nat -> Prop) : (forall p, p ∈ ps -> exists i, A i /\ 1 <= i /\ want i p) -> (forall i p, A i -> 1 <= i -> want i p -> sets_in p ps) ->
  (forall t, t ∈ ps ≫= cands1 nb bad -> exists i, A i /\ 1 <= i /\ want (S i) t) /\ (forall i t, A i -> 1 <= i -> want (S i) t -> sets_in t (ps ≫= cands1 nb bad)).
Proof.
  intros Hs Hc. split.
  - intros t (p & a & b & Hp & Ha & Hb & Hbp & Hbb & ->)%elem_of_cands. destruct (Hs p Hp) as (i & Hi & Hi1 & Hw). exists i. split; [done|]. split; [done|]. by apply (want_add i p b a).
  - intros i t Hi Hi1 Hw. destruct (want_pred i t Hi1 Hw) as (u & a & b & Hu & Ha & Hb & Hbu & Hbb & Hsame). destruct (Hc i u Hi Hi1 Hu) as (p & Hp & Hup).
    exists (sadd b p). split.
    + apply elem_of_cands. exists p, a, b. destruct Hup as [U1 U2]. split_and!; try done; [by apply U1|]. intros Hbp. by apply Hbu, U2.
    + eapply same_set_trans; [exact Hsame|]. destruct Hup as [U1 U2]. split; intros z [->|Hz]%elem_of_sadd; apply elem_of_sadd; auto.
Qed.
Lemma want_one : want 1 [x0].
Proof. split_and!; [apply NoDup_singleton|left|done|by intros z ->%elem_of_list_singleton|]. intros a b ->%elem_of_list_singleton ->%elem_of_list_singleton. constructor. Qed.
Lemma want_one_inv p : want 1 p -> p = [x0].
Proof. intros (_ & H & Hl & _). destruct p as [|a [|]]; try done. by apply elem_of_list_singleton in H as ->. Qed.

Lemma all_sets_loop_ok : forall k j ps ns, 1 <= j -> (forall p, p ∈ ps -> want j p) -> (forall p, want j p -> sets_in p ps) ->
  apart ns -> (forall s, s ∈ ns -> exists i, 2 <= i <= j /\ want i s) -> (forall i s, 2 <= i <= j -> want i s -> sets_in s ns) ->
  let L := all_sets_loop nb bad k ps ns in
  apart L /\ (forall s, s ∈ L -> exists i, 2 <= i <= j + k /\ want i s) /\ (forall i s, 2 <= i <= j + k -> want i s -> sets_in s L).
Proof.
  induction k as [|k IH]; intros j ps ns Hj Hp1 Hp2 Ha Hs1 Hs2; cbn [all_sets_loop]; cbn zeta.
  { split; [done|]. rewrite Nat.add_0_r. done. }
  rewrite grow_all. destruct (round_ok ps (fun i => i = j)) as [R1 R2].
  { intros p Hp. exists j. auto. } { intros i p -> _. apply Hp2. }
  destruct (addall_spec (ps ≫= cands1 nb bad) []) as (A1 & A2 & A3). set (c := addall [] (ps ≫= cands1 nb bad)) in *.
  assert (forall t, t ∈ c -> want (S j) t) as Hc1. { intros t Ht. apply A3 in Ht as [Ht|Ht]; [by apply elem_of_nil in Ht|]. by destruct (R1 t Ht) as (i & -> & _ & ?). }
  assert (forall t, want (S j) t -> sets_in t c) as Hc2. { intros t Ht. apply A2. right. by apply (R2 j). }
  destruct (addall_spec c ns) as (B1 & B2 & B3). fold (addall ns c). replace (j + S k) with (S j + k) by lia. apply IH; [lia|done|done|by apply B1| |].
  - intros s Hs. apply B3 in Hs as [Hs|Hs]; [destruct (Hs1 s Hs) as (i & Hi & Hw); exists i; split; [lia|done]|]. exists (S j). split; [lia|]. by apply Hc1.
  - intros i s Hi Hw. apply B2. destruct (decide (i = S j)) as [->|Hne]; [right; by apply Hc2|]. left. apply (Hs2 i); [lia|done].
Qed.
Lemma touching_loop_ok (Hbad : bad = []) : forall k j ps c ns, 1 <= j -> (forall p, p ∈ ps -> exists i, (if decide (j = 1) then i = 1 else 2 <= i <= j) /\ want i p) ->
  (forall i p, (if decide (j = 1) then i = 1 else 2 <= i <= j) -> want i p -> sets_in p ps) ->
  apart c -> (forall s, s ∈ c -> exists i, 2 <= i <= j /\ want i s) -> (forall i s, 2 <= i <= j -> want i s -> sets_in s c) ->
  apart ns -> (forall s, s ∈ ns -> exists i, 2 <= i <= j /\ want i s) -> (forall i s, 2 <= i <= j -> want i s -> sets_in s ns) ->
  let L := touching_loop nb k ps c ns in
  apart L /\ (forall s, s ∈ L -> exists i, 2 <= i <= j + k /\ want i s) /\ (forall i s, 2 <= i <= j + k -> want i s -> sets_in s L).
Proof.
  induction k as [|k IH]; intros j ps c ns Hj Hp1 Hp2 Hac Hc1 Hc2 Ha Hs1 Hs2; cbn [touching_loop]; cbn zeta.
  { split; [done|]. rewrite Nat.add_0_r. done. }
  assert (foldl (grow_sets nb) c ps = addall c (ps ≫= cands1 nb bad)) as ->.
  { rewrite <- grow_all, Hbad. clear. revert c. induction ps as [|p ps IH]; intros c; [done|]. cbn [foldl]. by rewrite grow_sets_nil, IH. }
  destruct (round_ok ps (fun i => if decide (j = 1) then i = 1 else 2 <= i <= j)) as [R1 R2].
  { intros p Hp. destruct (Hp1 p Hp) as (i & Hi & Hw). exists i. split; [done|]. split; [destruct (decide (j = 1)); lia|done]. }
  { intros i p Hi _. by apply Hp2. }
  destruct (addall_spec (ps ≫= cands1 nb bad) c) as (A1 & A2 & A3). set (c' := addall c (ps ≫= cands1 nb bad)) in *.
  assert (forall t, t ∈ c' -> exists i, 2 <= i <= S j /\ want i t) as Hc1'.
  { intros t Ht. apply A3 in Ht as [Ht|Ht]; [destruct (Hc1 t Ht) as (i & Hi & Hw); exists i; split; [lia|done]|]. destruct (R1 t Ht) as (i & Hi & Hi1 & Hw). exists (S i). split; [destruct (decide (j = 1)); lia|done]. }
  assert (forall i t, 2 <= i <= S j -> want i t -> sets_in t c') as Hc2'.
  { intros i t Hi Hw. apply A2. destruct (decide (i = S j)) as [->|Hne]; [|left; apply (Hc2 i); [lia|done]]. right. apply (R2 j); [destruct (decide (j = 1)); lia|lia|done]. }
  destruct (addall_spec c' ns) as (B1 & B2 & B3). fold (addall ns c'). replace (j + S k) with (S j + k) by lia. apply IH; try lia; try done.
  - intros p Hp. destruct (Hc1' p Hp) as (i & Hi & Hw). exists i. by rewrite decide_False by lia.
  - intros i p. rewrite decide_False by lia. apply Hc2'.
  - by apply A1.
  - by apply B1.
  - intros s Hs. apply B3 in Hs as [Hs|Hs]; [destruct (Hs1 s Hs) as (i & Hi & Hw); exists i; split; [lia|done]|]. by apply Hc1'.
  - intros i s Hi Hw. apply B2. right. by apply (Hc2' i).
Qed.
Lemma apart_nil : apart [].
Proof. intros i j s t Hi. by rewrite lookup_nil in Hi. Qed.
Lemma loop_lists L m : apart L -> (forall s, s ∈ L -> exists i, 2 <= i <= m /\ want i s) -> (forall i s, 2 <= i <= m -> want i s -> sets_in s L) ->
  lists_sets L (fun s => x0 ∈ s /\ 2 <= length s <= m /\ (forall z, z ∈ s -> z ∉ bad) /\ set_connected R s).
Proof.
  intros Ha H1 H2. split_and!.
  - intros s Hs. destruct (H1 s Hs) as (i & Hi & W1 & W2 & W3 & W4 & W5). rewrite W3. done.
  - intros s Hn (W2 & W3 & W4 & W5). apply (H2 (length s)); [lia|]. done.
  - exact Ha.
Qed.
Lemma all_sets_loop_lists n : lists_sets (all_sets_loop nb bad (n - 1) [[x0]] []) (fun s => x0 ∈ s /\ 2 <= length s <= n /\ (forall z, z ∈ s -> z ∉ bad) /\ set_connected R s).
Proof.
  destruct (decide (n = 0)) as [->|Hn].
  { cbn. split_and!; [|intros s _ (_ & ? & _); lia|apply apart_nil]. intros s Hs. by apply elem_of_nil in Hs. }
  destruct (all_sets_loop_ok (n - 1) 1 [[x0]] []) as (H1 & H2 & H3).
  - done.
  - intros p ->%elem_of_list_singleton. apply want_one.
  - intros p ->%want_one_inv. exists [x0]. split; [left|apply same_set_refl].
  - apply apart_nil.
  - intros s Hs. by apply elem_of_nil in Hs.
  - intros i s Hi. lia.
  - replace (1 + (n - 1)) with n in * by lia. by apply loop_lists.
Qed.
Lemma touching_loop_lists n : bad = [] -> lists_sets (touching_loop nb (n - 1) [[x0]] [] []) (fun s => x0 ∈ s /\ 2 <= length s <= n /\ (forall z, z ∈ s -> z ∉ bad) /\ set_connected R s).
Proof.
  intros Hbad. destruct (decide (n = 0)) as [->|Hn].
  { cbn. split_and!; [|intros s _ (_ & ? & _); lia|apply apart_nil]. intros s Hs. by apply elem_of_nil in Hs. }
  destruct (touching_loop_ok Hbad (n - 1) 1 [[x0]] [] []) as (H1 & H2 & H3); try apply apart_nil; try (intros s Hs; by apply elem_of_nil in Hs); try (intros i s Hi; lia).
  - done.
  - intros p ->%elem_of_list_singleton. exists 1. split; [done|apply want_one].
  - intros i p Hi. rewrite decide_True in Hi by done. subst i. intros ->%want_one_inv. exists [x0]. split; [left|apply same_set_refl].
  - replace (1 + (n - 1)) with n in * by lia. by apply loop_lists.
Qed.
End grow.

(** ** all nodes in turn *)
Lemma lists_sets_iff L (P Q : list name -> Prop) : (forall s, P s <-> Q s) -> lists_sets L P -> lists_sets L Q.
Proof.
  intros H (H1 & H2 & H3). split_and!; [|intros s Hn Hq; apply H2; [done|by apply H]|done]. intros s Hs. destruct (H1 s Hs). split; [done|]. by apply H.
Qed.
Lemma not_elem_of_nil_iff (P : Prop) (z : name) : (P /\ z ∉ []) <-> P.
Proof. split; [tauto|]. intros. split; [done|apply not_elem_of_nil]. Qed.
Lemma all_sets_ok nb n : (forall x y, y ∈ nb x -> x ∈ nb y) -> forall nodes processed, NoDup nodes -> (forall x, x ∈ nodes -> x ∉ processed) ->
  (all_sets nb n processed nodes).*1 = nodes /\
  forall pre x post, nodes = pre ++ x :: post -> exists L, all_sets nb n processed nodes !! length pre = Some (x, L) /\
    lists_sets L (fun s => x ∈ s /\ 2 <= length s <= n /\ (forall z, z ∈ s -> z ∉ processed /\ z ∉ pre) /\ set_connected (fun a b => b ∈ nb a) s).
Proof.
  intros Hsym. induction nodes as [|x0 nodes IH]; intros processed Hnd Hp; cbn [all_sets].
  { split; [done|]. intros pre x post E. by destruct pre. }
  apply NoDup_cons in Hnd as [Hx0 Hnd]. destruct (IH (sadd x0 processed) Hnd) as [I1 I2]. { intros x Hx. rewrite elem_of_sadd. intros [->|H']; [done|]. apply (Hp x); [by right|done]. }
  split; [cbn; by rewrite I1|]. intros pre x post E. destruct pre as [|y pre]; cbn in E; injection E as -> ->.
  - eexists. split; [done|]. eapply lists_sets_iff; [|apply (all_sets_loop_lists nb processed x Hsym)]; [|by apply Hp; left].
    intros s. setoid_rewrite not_elem_of_nil_iff. tauto.
  - destruct (I2 pre x post eq_refl) as (L & E & HL). exists L. split; [done|]. eapply lists_sets_iff; [|exact HL].
    intros s. setoid_rewrite elem_of_sadd. setoid_rewrite elem_of_cons. split; intros (? & ? & H' & ?); (split_and!; try done); try lia; intros z Hz; destruct (H' z Hz) as [Ha Hb]; split; tauto.
Qed.
