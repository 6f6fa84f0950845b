(** * Property C16: supra-adjacency matrix of MultilayerNetwork *)
From Verif Require Import Supra PropsNet.

(** [entry m i j v]: the matrix [m] has the value [v] in row [i], column [j]. *)
Definition entry (m : list (list Z)) (i j : nat) (v : Z) : Prop :=
  exists row, m !! i = Some row /\ row !! j = Some v.

Theorem C16_supra_adjacency asp noe dir fi h n : hist asp noe dir fi h n ->
  forall inc m nodes, net_supra n inc = Ok (m, nodes) ->
  lists_exactly nodes (fun a => length a = S asp /\ forall k x, a !! k = Some x -> has_elem n k x) /\
  length m = length nodes /\ (forall row, row ∈ m -> length row = length nodes) /\
  forall i j a b, nodes !! i = Some a -> nodes !! j = Some b ->
    let included := if decide (asp = 0) then i <> j else inc = true \/ tail a = tail b in
    exists v, entry m i j v /\ (included -> reads n a b v) /\ (~ included -> v = 0%Z).
Proof.
  intros H inc m nodes Hs. destruct (hist_inv _ _ _ _ _ _ H) as [HS HL Ha _ _ _].
  destruct (supra_exact _ _ _ _ _ _ (wfS_nodup _ HS) (wfS_len _ HS) Hs) as (H1 & H2 & H3 & H4 & H5).
  assert (forall a, a ∈ nodes <-> length a = S asp /\ forall k x, a !! k = Some x -> has_elem n k x) as Hn.
  { intros a. rewrite H2. change (Forall2 (∈) a (slices n)) with (nl_in_slices n a).
    rewrite nl_in_slices_sl, (wfS_len _ HS), Ha. by setoid_rewrite has_elem_sl. }
  split_and!; [by split|done| |].
  - intros row [i Hi]%elem_of_list_lookup. by eapply H4.
  - intros i j a b Hi Hj included. destruct (H5 i j a b Hi Hj) as (row & v & Hr & Hv & He).
    exists v. split; [by exists row|].
    assert (reads n a b (weight n a b)) as Hrd.
    { apply elem_of_list_lookup_2, Hn in Hi as [Hi _]. apply elem_of_list_lookup_2, Hn in Hj as [Hj _].
      apply reads_weight; congruence. }
    unfold supra_entry in He. rewrite Ha in He. subst included.
    destruct (decide (asp = 0)) as [->|H0].
    + rewrite decide_False in He by lia. destruct (decide (i = j)) as [->|Hij]; injection He as <-; tauto.
    + rewrite decide_True in He by lia. destruct inc; simpl in He.
      * injection He as <-. tauto.
      * destruct (bool_decide (tail a = tail b)) eqn:Eb; injection He as <-;
          [apply bool_decide_eq_true in Eb|apply bool_decide_eq_false in Eb]; [tauto|].
        split; [|done]. intros [?|?]; done.
Qed.
Theorem C16_symmetric asp noe fi h n : hist asp noe false fi h n ->
  forall inc m nodes, net_supra n inc = Ok (m, nodes) ->
  forall i j v, entry m i j v <-> entry m j i v.
Proof.
  intros H inc m nodes Hs.
  assert (forall i j v, entry m i j v -> entry m j i v) as G; [|by split; apply G].
  destruct (C16_supra_adjacency _ _ _ _ _ _ H _ _ _ Hs) as ([_ H1] & H2 & H3 & H4).
  intros i j v (row & Hr & Hv).
  destruct (lookup_lt_is_Some_2 nodes i) as [a Hi]. { rewrite <- H2. by eapply lookup_lt_Some. }
  destruct (lookup_lt_is_Some_2 nodes j) as [b Hj].
  { rewrite <- (H3 row); [by eapply lookup_lt_Some|by eapply elem_of_list_lookup_2]. }
  destruct (H4 i j a b Hi Hj) as (u & (row' & Hr' & Hu) & Y1 & N1). simplify_eq.
  destruct (H4 j i b a Hj Hi) as (u & (row' & Hr' & Hu) & Y2 & N2).
  exists row'. split; [done|]. rewrite Hu. f_equal.
  assert (length a = S asp /\ length b = S asp) as [La' Lb'].
  { split; [apply elem_of_list_lookup_2, H1 in Hi|apply elem_of_list_lookup_2, H1 in Hj]; tauto. }
  set (P := if decide (asp = 0) then i <> j else inc = true \/ tail a = tail b) in *.
  set (P' := if decide (asp = 0) then j <> i else inc = true \/ tail b = tail a) in *.
  assert (P <-> P') as HP. { subst P P'. destruct (decide (asp = 0)); intuition congruence. }
  assert (P \/ ~ P) as [Hp|Hp].
  { subst P. destruct (decide (asp = 0)); [destruct (decide (i = j)); tauto|].
    destruct (decide (inc = true \/ tail a = tail b)); tauto. }
  - specialize (Y1 Hp). specialize (Y2 (proj1 HP Hp)).
    destruct (C01_reads_total _ _ _ _ _ _ H a b La' Lb') as [w Hw].
    apply (C02_undirected_symmetric _ _ _ _ _ H) in Y2; [|done|done].
    destruct (hist_inv _ _ _ _ _ _ H) as [_ _ Ha _ _ _].
    apply reads_rd in Y1, Y2; congruence.
  - rewrite N1, N2; [done| |done]. by rewrite <- HP.
Qed.
(** The call raises exactly when a set of nodes or of elementary layers contains
    both integers and strings. *)
Theorem C16_defined asp noe dir fi h n : hist asp noe dir fi h n -> forall inc,
  (exists r, net_supra n inc = Ok r) <->
  ~ exists k i t, has_elem n k (NInt i) /\ has_elem n k (NStr t).
Proof.
  intros H inc. destruct (hist_inv _ _ _ _ _ _ H) as [HS _ _ _ _ _]. rewrite net_supra_ok by done.
  setoid_rewrite has_elem_sl. unfold sl, mixed. split.
  - intros Hm (k & i & t & (s & Hs & Hi) & (s' & Hs' & Ht)). simplify_eq.
    apply (Hm s); [by eapply elem_of_list_lookup_2|by exists i, t].
  - intros Hm s [k Hk]%elem_of_list_lookup (i & t & Hi & Ht). apply Hm. exists k, i, t. split; exists s; done.
Qed.
Example C16_example : exists m nodes, net_supra ex_n true = Ok (m, nodes) /\ length nodes = 12 /\
  nodes !! 1 = Some [A2; La] /\ nodes !! 5 = Some [A3; Lb] /\ entry m 1 5 4 /\ entry m 5 1 4 /\
  (exists m', net_supra ex_n false = Ok (m', nodes) /\ entry m' 1 5 0 /\ entry m' 1 0 7) /\
  net_supra (run ex_n [OpAddNode (NStr "x") None]) true = Err TypeError.
Proof.
  eexists _, _. split; [by vm_compute|]. split_and!; try (by vm_compute); try (eexists; by vm_compute).
  eexists. split; [by vm_compute|]. split; eexists; by vm_compute.
Qed.
(** Zero aspects: self-loops are not in the matrix. *)
Theorem C16_zero_aspect_diagonal_refuted :
  exists n m nodes i a, reachable n /\ net_supra n true = Ok (m, nodes) /\ nodes !! i = Some a /\
    reads n a a 5 /\ entry m i i 0.
Proof.
  pose (n := run (new_net 0 0 false true) [OpSet [A1; A1] 5]).
  exists n, [[0%Z]], [[A1]], 0, [A1]. split_and!.
  - exists 0, 0%Z, false, true, [OpSet [A1; A1] 5]. apply run_hist0.
  - by vm_compute.
  - done.
  - exists [A1; A1]. split; [by apply names_short|by vm_compute].
  - exists [0%Z]. done.
Qed.
Print Assumptions C16_supra_adjacency.
Print Assumptions C16_symmetric.
Print Assumptions C16_defined.
Print Assumptions C16_zero_aspect_diagonal_refuted.
