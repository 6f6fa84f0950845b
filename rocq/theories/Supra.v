(** * Python's [sorted] and [get_supra_adjacency_matrix] (net.py 623-654) *)
From Verif Require Export NetEdges.
From Coq Require String.

(** Python's [<=] on names of the same kind. *)
Definition name_leb (x y : name) : bool :=
  match x, y with
  | NInt a, NInt b => Z.leb a b
  | NStr a, NStr b => Coq.Strings.String.leb a b
  | NInt _, NStr _ => true
  | NStr _, NInt _ => false
  end.
(** Lexicographic order on tuples. *)
Fixpoint tuple_leb (a b : list name) : bool :=
  match a, b with
  | [], _ => true
  | _ :: _, [] => false
  | x :: a, y :: b => if decide (x = y) then tuple_leb a b else name_leb x y
  end.
Definition name_le (x y : name) : Prop := name_leb x y = true.
Definition tuple_le (x y : nl) : Prop := tuple_leb x y = true.
Global Instance name_le_dec : RelDecision name_le.
Proof. intros x y. unfold name_le. apply _. Defined.
Global Instance tuple_le_dec : RelDecision tuple_le.
Proof. intros x y. unfold tuple_le. apply _. Defined.
Definition is_int (x : name) : bool := match x with NInt _ => true | NStr _ => false end.
(** [sorted(s)]: comparing an int with a str raises TypeError, and sorting a
    collection containing both always compares such a pair. *)
Definition py_sorted (l : list name) : res (list name) :=
  if existsb is_int l && existsb (fun x => negb (is_int x)) l then Err TypeError
  else Ok (merge_sort name_le l).
Definition sort_tuples (l : list nl) : list nl := merge_sort tuple_le l.

(** net.py 638-640: the node-layers in the order of the matrix.  The components
    of all tuples are sorted (hence comparable) when the tuples are sorted. *)
Definition supra_nodes (sl : list (list name)) : res (list nl) :=
  let? ss := rmapM py_sorted (rev sl) in Ok ((fun x => rev x) <$> sort_tuples (cart ss)).

(** net.py 637-654 over an arbitrary reading function [w] for [self[i][j]]
    (MultiplexNetwork overrides it).  Rows are filled row by row; entries not
    assigned keep the 0 of [numpy.zeros]. *)
Definition supra (asp : nat) (sl : list (list name)) (w : nl -> nl -> res Z) (inc : bool)
  : res (list (list Z) * list nl) :=
  if decide (0 < asp)%nat then
    let? nodes := supra_nodes sl in
    let? m := rmapM (fun a => rmapM (fun b =>
                if inc || bool_decide (tail a = tail b) then w a b else Ok 0%Z) nodes) nodes in
    Ok (m, nodes)
  else
    let? names := py_sorted (default [] (sl !! 0%nat)) in
    let nodes := (fun x => [x]) <$> names in
    let? m := rmapM (fun p : nat * nl => rmapM (fun q : nat * nl =>
                if decide (p.1 = q.1) then Ok 0%Z else w (p.2) (q.2)) (imap pair nodes)) (imap pair nodes) in
    Ok (m, nodes).
(** [get_supra_adjacency_matrix(includeCouplings)] of a MultilayerNetwork. *)
Definition net_supra (n : mlnet) (inc : bool) : res (list (list Z) * list nl) :=
  supra (aspects n) (slices n) (fun a b => Ok (weight n a b)) inc.

(** ** Facts *)
Lemma py_sorted_perm l l' : py_sorted l = Ok l' -> l' ≡ₚ l.
Proof. unfold py_sorted. destruct (_ && _); [done|]. intros [= <-]. apply merge_sort_Permutation. Qed.
Lemma rmapM_Ok_length {A B} (f : A -> res B) l l' : rmapM f l = Ok l' -> length l' = length l.
Proof.
  revert l'. induction l as [|x l IH]; intros l'; simpl; [by intros [= <-]|].
  destruct (f x); simpl; [|done]. destruct (rmapM f l); simpl; [|done]. intros [= <-]. simpl. f_equal. by apply IH.
Qed.
Lemma rmapM_Ok_lookup {A B} (f : A -> res B) l l' i y : rmapM f l = Ok l' -> l' !! i = Some y ->
  exists x, l !! i = Some x /\ f x = Ok y.
Proof.
  revert l' i. induction l as [|x l IH]; intros l' i; simpl; [by intros [= <-]|].
  destruct (f x) eqn:E; simpl; [|done]. destruct (rmapM f l) eqn:E'; simpl; [|done]. intros [= <-].
  destruct i as [|i]; simpl; [intros [= <-]; eauto|]. by apply IH.
Qed.
Lemma rmapM_all_ok {A B} (f : A -> res B) l : (forall x, x ∈ l -> exists y, f x = Ok y) -> exists l', rmapM f l = Ok l'.
Proof.
  induction l as [|x l IH]; intros H; simpl; [eauto|]. destruct (H x) as [y ->]; [left|]. simpl.
  destruct IH as [l' ->]; [intros z Hz; apply H; by right|]. simpl. eauto.
Qed.
Lemma rmapM_err {A B} (f : A -> res B) l e : rmapM f l = Err e -> exists x, x ∈ l /\ f x = Err e.
Proof.
  induction l as [|x l IH]; simpl; [done|]. destruct (f x) eqn:E; simpl.
  - destruct (rmapM f l) eqn:E'; simpl; [done|]. intros [= <-]. destruct IH as (z & ? & ?); [done|].
    exists z. split; [by right|done].
  - intros [= <-]. exists x. split; [left|done].
Qed.
Lemma rmapM_Forall2 {A B} (f : A -> res B) l l' : rmapM f l = Ok l' -> Forall2 (fun x y => f x = Ok y) l l'.
Proof.
  revert l'. induction l as [|x l IH]; intros l'; simpl; [intros [= <-]; constructor|].
  destruct (f x) eqn:E; simpl; [|done]. destruct (rmapM f l); simpl; [|done]. intros [= <-].
  constructor; [done|]. by apply IH.
Qed.

Lemma supra_nodes_exact sl nodes : Forall NoDup sl -> supra_nodes sl = Ok nodes ->
  NoDup nodes /\ forall a, a ∈ nodes <-> Forall2 (∈) a sl.
Proof.
  intros Hnd. unfold supra_nodes. destruct (rmapM py_sorted (rev sl)) as [ss|] eqn:E; [|done].
  intros [= <-]. apply rmapM_Forall2 in E.
  assert (Forall2 (fun s t => t ≡ₚ s) (rev sl) ss) as HP.
  { eapply Forall2_impl; [exact E|]. intros x y. apply py_sorted_perm. }
  unfold sort_tuples. split.
  - apply NoDup_fmap; [intros x y Hxy; apply (f_equal (@rev name)) in Hxy; by rewrite !rev_involutive in Hxy|].
    rewrite merge_sort_Permutation. apply NoDup_cart.
    assert (Forall NoDup (rev sl)) as Hr by (rewrite Forall_forall in *; intros x Hx; apply Hnd; by apply elem_of_list_In, in_rev, elem_of_list_In).
    clear -HP Hr. induction HP as [|s t sl' ss' H HP IH]; [constructor|]. apply Forall_cons in Hr as [Hr1 Hr2].
    constructor; [by rewrite H|auto].
  - intros a. rewrite elem_of_list_fmap.
    assert (forall b, b ∈ cart ss <-> Forall2 (∈) (rev b) sl) as Hb.
    { intros b. rewrite elem_of_cart. rewrite <- (rev_involutive sl).
      assert (forall (u : nl) (v : list nl), Forall2 (∈) (rev u) (rev v) <-> Forall2 (∈) u v) as Hrev.
      { assert (forall (u : nl) (v : list nl), Forall2 (∈) u v -> Forall2 (∈) (rev u) (rev v)) as G.
        { intros u v Huv. induction Huv; simpl; [constructor|]. apply Forall2_app; [done|]. by constructor. }
        intros u v. split; [|apply G]. intros Huv%G. by rewrite !rev_involutive in Huv. }
      rewrite Hrev. clear -HP. revert b. induction HP as [|s t sl' ss' H HP IH]; intros b.
      - split; intros Hx; inversion Hx; constructor.
      - split; intros Hx; inversion Hx; subst; constructor; [by rewrite <- H|by apply IH|by rewrite H|by apply IH]. }
    split.
    + intros (b & -> & Hin). rewrite merge_sort_Permutation in Hin. by apply Hb.
    + intros Ha. exists (rev a). rewrite rev_involutive. split; [done|]. rewrite merge_sort_Permutation.
      apply Hb. by rewrite rev_involutive.
Qed.

Lemma elem_of_imap_pair {A} (l : list A) p : p ∈ imap pair l <-> l !! p.1 = Some p.2.
Proof.
  destruct p as [i x]. rewrite elem_of_list_lookup. simpl. split.
  - intros [j Hj]. rewrite list_lookup_imap in Hj. destruct (l !! j) eqn:E; simpl in Hj; [|done].
    injection Hj as -> ->. done.
  - intros H. exists i. rewrite list_lookup_imap, H. done.
Qed.

(** The matrix entry for two positions. *)
Definition supra_entry (asp : nat) (w : nl -> nl -> res Z) (inc : bool) (i j : nat) (a b : nl) : res Z :=
  if decide (0 < asp)%nat then if inc || bool_decide (tail a = tail b) then w a b else Ok 0%Z
  else if decide (i = j) then Ok 0%Z else w a b.

Lemma supra_exact asp sl w inc m nodes : Forall NoDup sl -> length sl = S asp ->
  supra asp sl w inc = Ok (m, nodes) ->
  NoDup nodes /\ (forall a, a ∈ nodes <-> Forall2 (∈) a sl) /\ length m = length nodes /\
  (forall i row, m !! i = Some row -> length row = length nodes) /\
  (forall i j a b, nodes !! i = Some a -> nodes !! j = Some b ->
     exists row v, m !! i = Some row /\ row !! j = Some v /\ supra_entry asp w inc i j a b = Ok v).
Proof.
  intros Hnd Hlen. unfold supra, supra_entry. destruct (decide (0 < asp)%nat) as [Hasp|Hasp].
  - destruct (supra_nodes sl) as [ns|] eqn:En; [|done]. simpl.
    destruct (rmapM _ ns) as [m'|] eqn:Em; [|done]. simpl. intros [= <- <-].
    destruct (supra_nodes_exact _ _ Hnd En) as [H1 H2].
    split_and!; [done|done|by eapply rmapM_Ok_length| |].
    + intros i row Hi. destruct (rmapM_Ok_lookup _ _ _ _ _ Em Hi) as (a & _ & Ha). by eapply rmapM_Ok_length.
    + intros i j a b Ha Hb. destruct (lookup_lt_is_Some_2 m' i) as [row Hrow].
      { rewrite (rmapM_Ok_length _ _ _ Em). by eapply lookup_lt_Some. }
      destruct (rmapM_Ok_lookup _ _ _ _ _ Em Hrow) as (a' & Ha' & Hr). simplify_eq.
      destruct (lookup_lt_is_Some_2 row j) as [v Hv].
      { rewrite (rmapM_Ok_length _ _ _ Hr). by eapply lookup_lt_Some. }
      destruct (rmapM_Ok_lookup _ _ _ _ _ Hr Hv) as (b' & Hb' & Hr'). simplify_eq. eauto 10.
  - destruct sl as [|s [|s' sl]]; simpl in Hlen; try lia. cbn [lookup list_lookup default].
    destruct (py_sorted _) as [ns|] eqn:En; [|done]. simpl in En. cbn [rbind].
    destruct (rmapM _ (imap pair ((fun x => [x]) <$> ns))) as [m'|] eqn:Em; [|done]. simpl. intros [= <- <-].
    apply py_sorted_perm in En. apply Forall_cons in Hnd as [Hs _].
    split_and!.
    + apply NoDup_fmap; [by intros ?? [= ?]|]. by rewrite En.
    + intros a. rewrite elem_of_list_fmap. split.
      * intros (x & -> & Hx). rewrite En in Hx. by repeat constructor.
      * intros Ha. inversion Ha as [|x ? ? ? Hx Hn]; subst. inversion Hn; subst. exists x. by rewrite En.
    + rewrite (rmapM_Ok_length _ _ _ Em), imap_length. done.
    + intros i row Hi. destruct (rmapM_Ok_lookup _ _ _ _ _ Em Hi) as (a & _ & Ha).
      rewrite (rmapM_Ok_length _ _ _ Ha), imap_length. done.
    + intros i j a b Ha Hb. destruct (lookup_lt_is_Some_2 m' i) as [row Hrow].
      { rewrite (rmapM_Ok_length _ _ _ Em), imap_length. by eapply lookup_lt_Some. }
      destruct (rmapM_Ok_lookup _ _ _ _ _ Em Hrow) as ([i' a'] & Ha' & Hr).
      rewrite list_lookup_imap, Ha in Ha'. injection Ha' as <- <-.
      destruct (lookup_lt_is_Some_2 row j) as [v Hv].
      { rewrite (rmapM_Ok_length _ _ _ Hr), imap_length. by eapply lookup_lt_Some. }
      destruct (rmapM_Ok_lookup _ _ _ _ _ Hr Hv) as ([j' b'] & Hb' & Hr').
      rewrite list_lookup_imap, Hb in Hb'. injection Hb' as <- <-. eauto 10.
Qed.

Definition mixed (s : list name) : Prop := exists i t, NInt i ∈ s /\ NStr t ∈ s.
Lemma py_sorted_ok s : (exists l, py_sorted s = Ok l) <-> ~ mixed s.
Proof.
  unfold py_sorted.
  assert (existsb is_int s && existsb (fun x => negb (is_int x)) s = true <-> mixed s) as H.
  { rewrite andb_true_iff, !existsb_exists. unfold mixed. setoid_rewrite <- elem_of_list_In. split.
    - intros [([i|] & ? & ?) ([|t] & ? & ?)]; try done. eauto.
    - intros (i & t & Hi & Ht). split; [by exists (NInt i)|by exists (NStr t)]. }
  destruct (_ && _).
  - split; [intros [? ?]; done|]. intros Hn. exfalso. by apply Hn, H.
  - split; [|eauto]. intros _ Hm. by apply H in Hm.
Qed.
Lemma py_sorted_err s e : py_sorted s = Err e -> e = TypeError.
Proof. unfold py_sorted. destruct (_ && _); congruence. Qed.

Lemma net_supra_ok n inc : wfS n ->
  (exists r, net_supra n inc = Ok r) <-> forall s, s ∈ slices n -> ~ mixed s.
Proof.
  intros Hw. unfold net_supra, supra. pose proof (wfS_len _ Hw) as Hlen.
  destruct (decide _) as [H|H].
  - unfold supra_nodes. destruct (rmapM py_sorted (rev (slices n))) as [ss|e] eqn:E; cbn [rbind].
    + split.
      * intros _ s Hs. apply rmapM_Forall2 in E.
        apply elem_of_list_In, in_rev, elem_of_list_In, elem_of_list_lookup in Hs as [i Hi].
        destruct (Forall2_lookup_l _ _ _ _ _ E Hi) as (y & _ & Hy). apply py_sorted_ok. eauto.
      * intros _. match goal with |- context [rmapM ?f ?l] => destruct (rmapM_all_ok f l) as [m ->] end.
        { intros a _. apply rmapM_all_ok. intros b _. destruct (_ || _); eauto. }
        cbn [rbind]. eauto.
    + split; [intros [? ?]; done|]. intros Hm. exfalso.
      destruct (rmapM_err _ _ _ E) as (s & Hs & He). apply elem_of_list_In, in_rev, elem_of_list_In in Hs.
      apply Hm in Hs. apply py_sorted_ok in Hs as [l Hl]. congruence.
  - destruct (slices n) as [|s [|s' sl]]; simpl in Hlen; try lia. cbn [lookup list_lookup default].
    destruct (py_sorted _) as [ss|e] eqn:E; cbn [rbind]; simpl in E.
    + split.
      * intros _ t Ht. apply elem_of_list_singleton in Ht as ->. apply py_sorted_ok. eauto.
      * intros _. match goal with |- context [rmapM ?f ?l] => destruct (rmapM_all_ok f l) as [m ->] end.
        { intros a _. apply rmapM_all_ok. intros b _. destruct (decide _); eauto. }
        cbn [rbind]. eauto.
    + split; [intros [? ?]; done|]. intros Hm. exfalso. destruct (proj2 (py_sorted_ok s)) as [l Hl].
      { apply Hm. left. } congruence.
Qed.
