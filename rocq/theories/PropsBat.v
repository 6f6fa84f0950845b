(** * C61: the clustering coefficients of Battiston et al. *)
From Verif Require Import CcMore CcSpec PropsMpx MpxIter CcFacts CcGen.
From Verif Require Import PropsCc.
Open Scope Z_scope.

Lemma fdiv_pos (q : Q) d : 0 < d -> fdiv q (inject_Z d) = Ok (q / inject_Z d)%Q.
Proof.
  intros Hd. unfold fdiv. destruct (Qeq_bool _ _) eqn:E; [|done]. apply Qeq_bool_iff in E. unfold Qeq in E. simpl in E. lia.
Qed.
Lemma Qdiv_div a b c : 0 < b -> 0 < c -> (inject_Z a / inject_Z b / inject_Z c == inject_Z a / inject_Z (b * c))%Q.
Proof.
  intros Hb Hc. rewrite inject_Z_mult. field. split; unfold Qeq, inject_Z; simpl; lia.
Qed.

Section Bat.
  Context (cs : list coupling) (dir fi : bool) (h : list call) (p : mpx) (Hi : pinv cs dir 0 fi h p) (Hcs : length cs = 1%nat).
  Let ls := lays p.
  Lemma bat_pairs_eq x c f : (forall v w, c v w = Ok (f v w)) ->
    bat_pairs p x c = Ok (zsumf (fun q => b2z (f (q.1) (q.2))) (prodl (others p x) (others p x))).
  Proof.
    intros Hc. unfold bat_pairs. rewrite (rsum_ok _ (fun v => zsumf (fun w => b2z (f v w)) (others p x))).
    - by rewrite zsumf_prodl.
    - intros v _. rewrite (rsum_ok _ (fun w => b2z (f v w))); [done|]. intros w _. rewrite Hc. cbn [rbind]. by destruct (f v w).
  Qed.
  Lemma rand_eq a b u v : a = Ok u -> b = Ok v -> rand a b = Ok (u && v).
  Proof. intros -> ->. unfold rand. cbn [rbind]. by destruct u. Qed.
  Lemma others_NoDup x : NoDup (others p x).
  Proof. apply NoDup_filter, (g_NoDup_mnodes cs dir fi h p Hi). Qed.
  Lemma elem_others x v : v ∈ others p x <-> v <> x /\ v ∈ mnodes p.
  Proof. unfold others. by rewrite elem_of_list_filter. Qed.
  Lemma lkb_others l x v : lkb p l x v = true \/ lkb p l v x = true -> v ∈ others p x /\ l ∈ ls.
  Proof. rewrite elem_others. intros [(? & ? & ? & ?)%(lkb_in cs dir fi h p Hi Hcs)|(? & ? & ? & ?)%(lkb_in cs dir fi h p Hi Hcs)]; auto. Qed.
  Let f1 x al v w := lkb p al x v && lkb p al w x.
  Let f2 x al be v w := lkb p al x v && lkb p be v w && lkb p al w x.
  Let g1 x al be v w := lkb p al x v && lkb p be w x.
  Let g2 x al be ga v w := lkb p al x v && lkb p ga v w && lkb p be w x.
  Let O2 x := prodl (others p x) (others p x).
  Let nb := Z.of_nat (length ls).
  Definition bD1 (x : name) : list (name * (name * name)) := bfilter (fun t => f1 x (t.1) (t.2.1) (t.2.2)) (prodl ls (O2 x)).
  Definition bS1 (x : name) : list (name * (name * (name * name))) :=
    bfilter (fun t => negb (bool_decide (t.2.1 = t.1)) && f2 x (t.1) (t.2.1) (t.2.2.1) (t.2.2.2)) (prodl ls (prodl ls (O2 x))).
  Definition bD2 (x : name) : list (name * (name * (name * name))) :=
    bfilter (fun t => negb (bool_decide (t.2.1 = t.1)) && g1 x (t.1) (t.2.1) (t.2.2.1) (t.2.2.2)) (prodl ls (prodl ls (O2 x))).
  Definition bS2 (x : name) : list (name * (name * (name * (name * name)))) :=
    bfilter (fun t => negb (bool_decide (t.2.1 = t.1)) && bool_decide (t.2.2.1 <> t.1 /\ t.2.2.1 <> t.2.1) && g2 x (t.1) (t.2.1) (t.2.2.1) (t.2.2.2.1) (t.2.2.2.2))
      (prodl ls (prodl ls (prodl ls (O2 x)))).
  Lemma bD1_exact x : lists_exactly (bD1 x) (fun t => mlinked p [x; t.1] [t.2.1; t.1] /\ mlinked p [t.2.2; t.1] [x; t.1]).
  Proof.
    split.
    - apply NoDup_bfilter, NoDup_prodl; [apply (g_NoDup_lays cs dir fi h p Hi Hcs)|]. apply NoDup_prodl; apply others_NoDup.
    - intros [al [v w]]. unfold bD1, O2. rewrite elem_of_bfilter. cbn [fst snd]. rewrite !(g_mlinked cs dir fi h p Hi Hcs). unfold f1. rewrite andb_true_iff, !elem_of_prodl. cbn [fst snd].
      split; [tauto|]. intros [H1 H2]. destruct (lkb_others al x v) as [? ?]; [by left|]. destruct (lkb_others al x w) as [? ?]; [by right|]. done.
  Qed.
  Lemma bS1_exact x : lists_exactly (bS1 x) (fun t => t.1 <> t.2.1 /\ mlinked p [x; t.1] [t.2.2.1; t.1] /\ mlinked p [t.2.2.1; t.2.1] [t.2.2.2; t.2.1] /\ mlinked p [t.2.2.2; t.1] [x; t.1]).
  Proof.
    split.
    - apply NoDup_bfilter, NoDup_prodl; [apply (g_NoDup_lays cs dir fi h p Hi Hcs)|]. apply NoDup_prodl; [apply (g_NoDup_lays cs dir fi h p Hi Hcs)|]. apply NoDup_prodl; apply others_NoDup.
    - intros [al [be [v w]]]. unfold bS1, O2. rewrite elem_of_bfilter. cbn [fst snd]. rewrite !(g_mlinked cs dir fi h p Hi Hcs). unfold f2.
      rewrite !andb_true_iff, negb_true_iff, bool_decide_eq_false, !elem_of_prodl. cbn [fst snd].
      split; [intros [(H0 & [H1 H2] & H3) _]; auto|]. intros (H0 & H1 & H2 & H3). destruct (lkb_others al x v) as [? ?]; [by left|]. destruct (lkb_others al x w) as [? ?]; [by right|].
      apply (lkb_in cs dir fi h p Hi Hcs) in H2 as Hx. destruct Hx as (_ & _ & _ & Hx). auto 10.
  Qed.
  Lemma bD2_exact x : lists_exactly (bD2 x) (fun t => t.1 <> t.2.1 /\ mlinked p [x; t.1] [t.2.2.1; t.1] /\ mlinked p [t.2.2.2; t.2.1] [x; t.2.1]).
  Proof.
    split.
    - apply NoDup_bfilter, NoDup_prodl; [apply (g_NoDup_lays cs dir fi h p Hi Hcs)|]. apply NoDup_prodl; [apply (g_NoDup_lays cs dir fi h p Hi Hcs)|]. apply NoDup_prodl; apply others_NoDup.
    - intros [al [be [v w]]]. unfold bD2, O2. rewrite elem_of_bfilter. cbn [fst snd]. rewrite !(g_mlinked cs dir fi h p Hi Hcs). unfold g1.
      rewrite !andb_true_iff, negb_true_iff, bool_decide_eq_false, !elem_of_prodl. cbn [fst snd].
      split; [intros [(H0 & H1 & H3) _]; auto|]. intros (H0 & H1 & H2). destruct (lkb_others al x v) as [? ?]; [by left|]. destruct (lkb_others be x w) as [? ?]; [by right|]. auto 10.
  Qed.
  Lemma bS2_exact x : lists_exactly (bS2 x) (fun t => t.1 <> t.2.1 /\ t.2.2.1 <> t.1 /\ t.2.2.1 <> t.2.1 /\
    mlinked p [x; t.1] [t.2.2.2.1; t.1] /\ mlinked p [t.2.2.2.1; t.2.2.1] [t.2.2.2.2; t.2.2.1] /\ mlinked p [t.2.2.2.2; t.2.1] [x; t.2.1]).
  Proof.
    split.
    - apply NoDup_bfilter. do 3 (apply NoDup_prodl; [apply (g_NoDup_lays cs dir fi h p Hi Hcs)|]). apply NoDup_prodl; apply others_NoDup.
    - intros [al [be [ga [v w]]]]. unfold bS2, O2. rewrite elem_of_bfilter. cbn [fst snd]. rewrite !(g_mlinked cs dir fi h p Hi Hcs). unfold g2.
      rewrite !andb_true_iff, negb_true_iff, bool_decide_eq_false, bool_decide_eq_true, !elem_of_prodl. cbn [fst snd].
      split; [intros [((H0 & H4 & H5) & (H1 & H2) & H3) _]; auto 10|]. intros (H0 & H4 & H5 & H1 & H2 & H3). destruct (lkb_others al x v) as [? ?]; [by left|]. destruct (lkb_others be x w) as [? ?]; [by right|].
      apply (lkb_in cs dir fi h p Hi Hcs) in H2 as Hx. destruct Hx as (_ & _ & _ & Hx). auto 15.
  Qed.
  Lemma len_bD1 x : Z.of_nat (length (bD1 x)) = zsumf (fun al => zsumf (fun q => b2z (f1 x al (q.1) (q.2))) (O2 x)) ls.
  Proof. unfold bD1. by rewrite length_bfilter, zsumf_prodl. Qed.
  Lemma b2z_ne (P : Prop) `{Decision P} : b2z (negb (bool_decide P)) = b2z (bool_decide (~ P)).
  Proof. by rewrite <- bool_decide_not. Qed.
  Lemma len_bS1 x : Z.of_nat (length (bS1 x)) = zsumf (fun al => zsumf (fun be => zsumf (fun q => b2z (f2 x al be (q.1) (q.2))) (O2 x)) (filter (fun be => be <> al) ls)) ls.
  Proof.
    unfold bS1. rewrite length_bfilter, zsumf_prodl. apply zsumf_ext. intros al _. rewrite zsumf_prodl, zsumf_filter_b. apply zsumf_ext. intros be _.
    rewrite <- zsumf_mul_l. apply zsumf_ext. intros [v w] _. cbn [fst snd]. by rewrite b2z_andb, b2z_ne.
  Qed.
  Lemma len_bD2 x : Z.of_nat (length (bD2 x)) = zsumf (fun al => zsumf (fun be => zsumf (fun q => b2z (g1 x al be (q.1) (q.2))) (O2 x)) (filter (fun be => be <> al) ls)) ls.
  Proof.
    unfold bD2. rewrite length_bfilter, zsumf_prodl. apply zsumf_ext. intros al _. rewrite zsumf_prodl, zsumf_filter_b. apply zsumf_ext. intros be _.
    rewrite <- zsumf_mul_l. apply zsumf_ext. intros [v w] _. cbn [fst snd]. by rewrite b2z_andb, b2z_ne.
  Qed.
  Lemma len_bS2 x : Z.of_nat (length (bS2 x)) = zsumf (fun al => zsumf (fun be => zsumf (fun ga => zsumf (fun q => b2z (g2 x al be ga (q.1) (q.2))) (O2 x))
    (filter (fun ga => ga <> al /\ ga <> be) ls)) (filter (fun be => be <> al) ls)) ls.
  Proof.
    unfold bS2. rewrite length_bfilter, zsumf_prodl. apply zsumf_ext. intros al _. rewrite zsumf_prodl, zsumf_filter_b. apply zsumf_ext. intros be _.
    rewrite zsumf_prodl, zsumf_filter_b, <- zsumf_mul_l. apply zsumf_ext. intros ga _. rewrite <- zsumf_mul_l, <- zsumf_mul_l. apply zsumf_ext. intros [v w] _. cbn [fst snd].
    rewrite !b2z_andb, b2z_ne. unfold g2. rewrite !b2z_andb. lia.
  Qed.
  Lemma len_ne al : al ∈ ls -> Z.of_nat (length (filter (fun be => be <> al) ls)) = nb - 1.
  Proof. intros Hal. apply length_filter_ne; [apply (g_NoDup_lays cs dir fi h p Hi Hcs)|done]. Qed.
  Lemma len_ne2 al be : al ∈ ls -> be ∈ ls -> be <> al -> Z.of_nat (length (filter (fun ga => ga <> al /\ ga <> be) ls)) = nb - 2.
  Proof.
    intros Hal Hbe Hne.
    assert (Permutation (filter (fun ga => ga <> al /\ ga <> be) ls) (filter (fun ga => ga <> be) (filter (fun ga => ga <> al) ls))) as ->.
    { pose proof (g_NoDup_lays cs dir fi h p Hi Hcs). apply NoDup_Permutation; [by apply NoDup_filter|by repeat apply NoDup_filter|]. intros ga. rewrite !elem_of_list_filter. tauto. }
    rewrite length_filter_ne; [rewrite len_ne by done; lia|apply NoDup_filter, (g_NoDup_lays cs dir fi h p Hi Hcs)|]. by rewrite elem_of_list_filter.
  Qed.
  Lemma b2z_le a b : (a = true -> b = true) -> b2z a <= b2z b.
  Proof. intros H. destruct a; [rewrite H by done; done|]. destruct (b2z_01 b) as [->| ->]; done. Qed.
  Lemma bound1 x : Z.of_nat (length (bS1 x)) <= Z.of_nat (length (bD1 x)) * (nb - 1).
  Proof.
    rewrite len_bS1, len_bD1, <- zsumf_mul_r. apply zsumf_le. intros al Hal. rewrite <- (len_ne al Hal), <- zsumf_const. apply zsumf_le. intros be _. apply zsumf_le. intros [v w] _.
    apply b2z_le. unfold f1, f2. cbn [fst snd]. rewrite !andb_true_iff. tauto.
  Qed.
  Lemma bound2 x : Z.of_nat (length (bS2 x)) <= Z.of_nat (length (bD2 x)) * (nb - 2).
  Proof.
    rewrite len_bS2, len_bD2, <- zsumf_mul_r. apply zsumf_le. intros al Hal. rewrite <- zsumf_mul_r. apply zsumf_le. intros be (Hne & Hbe)%elem_of_list_filter.
    rewrite <- (len_ne2 al be Hal Hbe Hne), <- zsumf_const. apply zsumf_le. intros ga _. apply zsumf_le. intros [v w] _.
    apply b2z_le. unfold g1, g2. cbn [fst snd]. rewrite !andb_true_iff. tauto.
  Qed.
  Lemma bat1_eq x : lcc_battiston1 p x = (if decide (2 <= length ls)%nat then
      let d := Z.of_nat (length (bD1 x)) in let s := Z.of_nat (length (bS1 x)) in
      if decide (d = 0) then Ok None else let? q := zdiv s d in let? r := fdiv q (inject_Z (nb - 1)) in Ok (Some r)
    else Err AssertionError).
  Proof.
    unfold lcc_battiston1. rewrite decide_True by apply (g_asp cs dir fi h p Hi Hcs). rewrite (g_layers1_eq cs dir fi h p Hi Hcs). cbn [rbind]. fold ls. destruct (decide _) as [Hge|]; [|done].
    rewrite (rsum_ok _ (fun al => zsumf (fun q => b2z (f1 x al (q.1) (q.2))) (O2 x))).
    2:{ intros al _. apply bat_pairs_eq. intros v w. apply rand_eq; apply (g_lnkb cs dir fi h p Hi Hcs). }
    cbn [rbind]. rewrite <- len_bD1. cbv zeta. destruct (decide _); [done|].
    rewrite (rsum_ok _ (fun al => zsumf (fun be => zsumf (fun q => b2z (f2 x al be (q.1) (q.2))) (O2 x)) (filter (fun be => be <> al) ls))).
    2:{ intros al _. apply rsum_ok. intros be _. apply bat_pairs_eq. intros v w. apply rand_eq; [apply rand_eq|]; apply (g_lnkb cs dir fi h p Hi Hcs). }
    cbn [rbind]. by rewrite <- len_bS1.
  Qed.
  Lemma bat2_eq x : lcc_battiston2 p x = (if decide (length ls < 3)%nat then Ok None else
      let d := Z.of_nat (length (bD2 x)) in let s := Z.of_nat (length (bS2 x)) in
      if decide (d = 0) then Ok None else let? q := zdiv s d in let? r := fdiv q (inject_Z (nb - 2)) in Ok (Some r)).
  Proof.
    unfold lcc_battiston2. rewrite decide_True by apply (g_asp cs dir fi h p Hi Hcs). rewrite (g_layers1_eq cs dir fi h p Hi Hcs). cbn [rbind]. fold ls. destruct (decide _) as [|Hge]; [done|].
    rewrite (rsum_ok _ (fun al => zsumf (fun be => zsumf (fun q => b2z (g1 x al be (q.1) (q.2))) (O2 x)) (filter (fun be => be <> al) ls))).
    2:{ intros al _. apply rsum_ok. intros be _. apply bat_pairs_eq. intros v w. apply rand_eq; apply (g_lnkb cs dir fi h p Hi Hcs). }
    cbn [rbind]. rewrite <- len_bD2. cbv zeta. destruct (decide _); [done|].
    rewrite (rsum_ok _ (fun al => zsumf (fun be => zsumf (fun ga => zsumf (fun q => b2z (g2 x al be ga (q.1) (q.2))) (O2 x)) (filter (fun ga => ga <> al /\ ga <> be) ls)) (filter (fun be => be <> al) ls))).
    2:{ intros al _. apply rsum_ok. intros be _. apply rsum_ok. intros ga _. apply bat_pairs_eq. intros v w. apply rand_eq; [apply rand_eq|]; apply (g_lnkb cs dir fi h p Hi Hcs). }
    cbn [rbind]. by rewrite <- len_bS2.
  Qed.
  (** Complete networks. *)
  Context (x : name) (Hx : x ∈ mnodes p) (Hfull : forall l v w, l ∈ ls -> v ∈ mnodes p -> w ∈ mnodes p -> v <> w -> lkb p l v w = true).
  Let no := Z.of_nat (length (others p x)).
  Lemma no_eq : no = Z.of_nat (length (mnodes p)) - 1.
  Proof. apply length_filter_ne; [apply (g_NoDup_mnodes cs dir fi h p Hi)|done]. Qed.
  Lemma full_pairs : zsumf (fun q => b2z (negb (bool_decide (q.1 = q.2)))) (O2 x) = no * (no - 1).
  Proof.
    unfold O2. rewrite zsumf_prodl. cbn [fst snd]. rewrite (zsumf_ext _ (fun _ => no - 1)).
    - rewrite zsumf_const. unfold no. lia.
    - intros v Hv. unfold no. rewrite <- (length_filter_ne (others p x) v) by (done || apply others_NoDup).
      rewrite <- (Z.mul_1_l (Z.of_nat _)), <- zsumf_const, zsumf_filter_b. apply zsumf_ext. intros w _. rewrite Z.mul_1_r, <- bool_decide_not. f_equal. apply bool_decide_ext. split; congruence.
  Qed.
  Lemma full_f al v w : al ∈ ls -> v ∈ others p x -> w ∈ others p x -> lkb p al x v = true /\ lkb p al w x = true.
  Proof. rewrite !elem_others. intros Ha [Hv Hv'] [Hw Hw']. split; apply Hfull; done || congruence. Qed.
  Lemma full_vw be v w : be ∈ ls -> v ∈ others p x -> w ∈ others p x -> lkb p be v w = negb (bool_decide (v = w)).
  Proof.
    rewrite !elem_others. intros Ha [Hv Hv'] [Hw Hw']. destruct (decide (v = w)) as [->|Hne].
    - rewrite bool_decide_true by done. unfold lkb. by rewrite bool_decide_true.
    - rewrite bool_decide_false by done. by apply Hfull.
  Qed.
  Lemma full_D1 : Z.of_nat (length (bD1 x)) = nb * (no * no).
  Proof.
    rewrite len_bD1, (zsumf_ext _ (fun _ => no * no)), zsumf_const; [unfold nb; lia|]. intros al Hal. rewrite (zsumf_ext _ (fun _ => 1)).
    - rewrite <- (Z.mul_1_l (no * no)). unfold O2. rewrite zsumf_prodl, (zsumf_ext _ (fun _ => no)), zsumf_const; [unfold no; lia|]. intros v _. rewrite zsumf_const. unfold no. lia.
    - intros [v w] [Hv Hw]%elem_of_prodl. destruct (full_f al v w Hal Hv Hw) as [H1 H2]. unfold f1. cbn [fst snd]. by rewrite H1, H2.
  Qed.
  Lemma full_S1 : Z.of_nat (length (bS1 x)) = nb * (nb - 1) * (no * (no - 1)).
  Proof.
    rewrite len_bS1, (zsumf_ext _ (fun _ => (nb - 1) * (no * (no - 1)))), zsumf_const; [unfold nb; lia|]. intros al Hal.
    rewrite (zsumf_ext _ (fun _ => no * (no - 1))); [rewrite zsumf_const, len_ne by done; lia|]. intros be (_ & Hbe)%elem_of_list_filter.
    rewrite <- full_pairs. apply zsumf_ext. intros [v w] [Hv Hw]%elem_of_prodl. destruct (full_f al v w Hal Hv Hw) as [H1 H2]. unfold f2. cbn [fst snd] in *.
    rewrite H1, H2, (full_vw be v w) by done. by destruct (negb _).
  Qed.
  Lemma full_D2 : Z.of_nat (length (bD2 x)) = nb * (nb - 1) * (no * no).
  Proof.
    rewrite len_bD2, (zsumf_ext _ (fun _ => (nb - 1) * (no * no))), zsumf_const; [unfold nb; lia|]. intros al Hal.
    rewrite (zsumf_ext _ (fun _ => no * no)); [rewrite zsumf_const, len_ne by done; lia|]. intros be (_ & Hbe)%elem_of_list_filter.
    rewrite (zsumf_ext _ (fun _ => 1)).
    - rewrite <- (Z.mul_1_l (no * no)). unfold O2. rewrite zsumf_prodl, (zsumf_ext _ (fun _ => no)), zsumf_const; [unfold no; lia|]. intros v _. rewrite zsumf_const. unfold no. lia.
    - intros [v w] [Hv Hw]%elem_of_prodl. destruct (full_f al v w Hal Hv Hw) as [H1 _]. destruct (full_f be v w Hbe Hv Hw) as [_ H2]. unfold g1. cbn [fst snd]. by rewrite H1, H2.
  Qed.
  Lemma full_S2 : Z.of_nat (length (bS2 x)) = nb * (nb - 1) * (nb - 2) * (no * (no - 1)).
  Proof.
    rewrite len_bS2, (zsumf_ext _ (fun _ => (nb - 1) * (nb - 2) * (no * (no - 1)))), zsumf_const; [unfold nb; lia|]. intros al Hal.
    rewrite (zsumf_ext _ (fun _ => (nb - 2) * (no * (no - 1)))); [rewrite zsumf_const, len_ne by done; lia|]. intros be (Hne & Hbe)%elem_of_list_filter.
    rewrite (zsumf_ext _ (fun _ => no * (no - 1))); [rewrite zsumf_const, len_ne2 by done; lia|]. intros ga (_ & Hga)%elem_of_list_filter.
    rewrite <- full_pairs. apply zsumf_ext. intros [v w] [Hv Hw]%elem_of_prodl. destruct (full_f al v w Hal Hv Hw) as [H1 _]. destruct (full_f be v w Hbe Hv Hw) as [_ H2]. unfold g2. cbn [fst snd] in *.
    rewrite H1, H2, (full_vw ga v w) by done. by destruct (negb _).
  Qed.
End Bat.

Lemma layers_len cs dir fi h p Ls : pinv cs dir 0 fi h p -> length cs = 1%nat -> lists_exactly Ls (mhas p 1) -> length (lays p) = length Ls.
Proof.
  intros Hi Hcs [HN HL]. apply Permutation_length, NoDup_Permutation; [by eapply g_NoDup_lays|done|]. intros l. by rewrite (g_lays_mhas cs dir fi h p Hi Hcs), HL.
Qed.
Lemma nodes_len cs dir fi h p Ns : pinv cs dir 0 fi h p -> lists_exactly Ns (mhas p 0) -> length (mnodes p) = length Ns.
Proof.
  intros Hi [HN HL]. apply Permutation_length, NoDup_Permutation; [by eapply g_NoDup_mnodes|done|]. intros l. by rewrite (g_nodes_mhas cs dir fi h p Hi), HL.
Qed.

(** [D] lists the pairs of links of the node on one layer, [S] those whose other ends are
    linked on another layer. *)
Theorem C61_battiston1 cs dir fi hs p x Ls : mhist cs dir 0 fi hs p -> length cs = 1%nat -> lists_exactly Ls (mhas p 1) ->
  ((length Ls < 2)%nat -> lcc_battiston1 p x = Err AssertionError) /\
  ((2 <= length Ls)%nat -> exists D S,
     lists_exactly D (fun '(al, (v, h)) => mlinked p [x; al] [v; al] /\ mlinked p [h; al] [x; al]) /\
     lists_exactly S (fun '(al, (be, (v, h))) => al <> be /\ mlinked p [x; al] [v; al] /\ mlinked p [v; be] [h; be] /\ mlinked p [h; al] [x; al]) /\
     (D = [] -> lcc_battiston1 p x = Ok None) /\
     (D <> [] -> exists q, lcc_battiston1 p x = Ok (Some q) /\ (0 <= q <= 1)%Q /\
        (q == inject_Z (Z.of_nat (length S)) / inject_Z (Z.of_nat (length D) * (Z.of_nat (length Ls) - 1)))%Q)).
Proof.
  intros Hh Hcs HL. pose proof (mhist_inv _ _ _ _ _ _ Hh) as Hi. pose proof (bat1_eq cs dir fi hs p Hi Hcs x) as He. cbv zeta in He.
  rewrite (layers_len _ _ _ _ _ _ Hi Hcs HL) in He. split.
  - intros Hlt. rewrite decide_False in He by lia. done.
  - intros Hge. rewrite decide_True in He by lia. exists (bD1 p x), (bS1 p x). split; [|split; [|split]].
    + destruct (bD1_exact cs dir fi hs p Hi Hcs x) as [H1 H2]. split; [done|]. intros [al [v w]]. by rewrite H2.
    + destruct (bS1_exact cs dir fi hs p Hi Hcs x) as [H1 H2]. split; [done|]. intros [al [be [v w]]]. by rewrite H2.
    + intros HD. rewrite HD in He. by rewrite decide_True in He by done.
    + intros HD. assert (0 < Z.of_nat (length (bD1 p x))) as Hd by (destruct (bD1 p x); [done|simpl; lia]).
      pose proof (bound1 cs dir fi hs p Hi Hcs x) as Hb. rewrite (layers_len _ _ _ _ _ _ Hi Hcs HL) in Hb.
      rewrite decide_False, zdiv_pos in He by lia. cbn [rbind] in He. rewrite fdiv_pos in He by lia. cbn [rbind] in He. eexists. split; [exact He|].
      rewrite Qdiv_div by lia. split; [|done]. apply Qdiv_unit; [nia|]. lia.
Qed.
(** [D] lists the pairs of links of the node on two layers, [S] those whose other ends are
    linked on a third layer. *)
Theorem C61_battiston2 cs dir fi hs p x Ls : mhist cs dir 0 fi hs p -> length cs = 1%nat -> lists_exactly Ls (mhas p 1) ->
  ((length Ls < 3)%nat -> lcc_battiston2 p x = Ok None) /\
  ((3 <= length Ls)%nat -> exists D S,
     lists_exactly D (fun '(al, (be, (v, h))) => al <> be /\ mlinked p [x; al] [v; al] /\ mlinked p [h; be] [x; be]) /\
     lists_exactly S (fun '(al, (be, (ga, (v, h)))) => al <> be /\ ga <> al /\ ga <> be /\
        mlinked p [x; al] [v; al] /\ mlinked p [v; ga] [h; ga] /\ mlinked p [h; be] [x; be]) /\
     (D = [] -> lcc_battiston2 p x = Ok None) /\
     (D <> [] -> exists q, lcc_battiston2 p x = Ok (Some q) /\ (0 <= q <= 1)%Q /\
        (q == inject_Z (Z.of_nat (length S)) / inject_Z (Z.of_nat (length D) * (Z.of_nat (length Ls) - 2)))%Q)).
Proof.
  intros Hh Hcs HL. pose proof (mhist_inv _ _ _ _ _ _ Hh) as Hi. pose proof (bat2_eq cs dir fi hs p Hi Hcs x) as He. cbv zeta in He.
  rewrite (layers_len _ _ _ _ _ _ Hi Hcs HL) in He. split.
  - intros Hlt. rewrite decide_True in He by lia. done.
  - intros Hge. rewrite decide_False in He by lia. exists (bD2 p x), (bS2 p x). split; [|split; [|split]].
    + destruct (bD2_exact cs dir fi hs p Hi Hcs x) as [H1 H2]. split; [done|]. intros [al [be [v w]]]. by rewrite H2.
    + destruct (bS2_exact cs dir fi hs p Hi Hcs x) as [H1 H2]. split; [done|]. intros [al [be [ga [v w]]]]. by rewrite H2.
    + intros HD. rewrite HD in He. by rewrite decide_True in He by done.
    + intros HD. assert (0 < Z.of_nat (length (bD2 p x))) as Hd by (destruct (bD2 p x); [done|simpl; lia]).
      pose proof (bound2 cs dir fi hs p Hi Hcs x) as Hb. rewrite (layers_len _ _ _ _ _ _ Hi Hcs HL) in Hb.
      rewrite decide_False, zdiv_pos in He by lia. cbn [rbind] in He. rewrite fdiv_pos in He by lia. cbn [rbind] in He. eexists. split; [exact He|].
      rewrite Qdiv_div by lia. split; [|done]. apply Qdiv_unit; [nia|]. lia.
Qed.
(** All links present on every layer: the documentation says that both coefficients are
    (n-1)/(n-2) on such networks; they are (n-2)/(n-1). *)
Definition complete (p : mpx) : Prop := forall l v w, mhas p 1 l -> mhas p 0 v -> mhas p 0 w -> v <> w -> mlinked p [v; l] [w; l].
Theorem C61_complete_networks cs dir fi hs p x Ls Ns : mhist cs dir 0 fi hs p -> length cs = 1%nat -> lists_exactly Ls (mhas p 1) -> lists_exactly Ns (mhas p 0) ->
  complete p -> mhas p 0 x -> (2 <= length Ns)%nat ->
  let v := (inject_Z (Z.of_nat (length Ns) - 2) / inject_Z (Z.of_nat (length Ns) - 1))%Q in
  ((2 <= length Ls)%nat -> exists q, lcc_battiston1 p x = Ok (Some q) /\ (q == v)%Q) /\
  ((3 <= length Ls)%nat -> exists q, lcc_battiston2 p x = Ok (Some q) /\ (q == v)%Q).
Proof.
  intros Hh Hcs HL HN Hc Hx Hn v. pose proof (mhist_inv _ _ _ _ _ _ Hh) as Hi. pose proof (layers_len _ _ _ _ _ _ Hi Hcs HL) as Hll.
  pose proof (nodes_len _ _ _ _ _ _ Hi HN) as Hnn. apply (g_nodes_mhas cs dir fi hs p Hi) in Hx.
  assert (forall l v w, l ∈ lays p -> v ∈ mnodes p -> w ∈ mnodes p -> v <> w -> lkb p l v w = true) as Hf.
  { intros l a b Hl Ha Hb Hab. apply (g_mlinked cs dir fi hs p Hi Hcs). apply Hc; [by apply (g_lays_mhas cs dir fi hs p Hi Hcs)|by apply (g_nodes_mhas cs dir fi hs p Hi)..|done]. }
  pose proof (no_eq cs dir fi hs p Hi x Hx) as Hno. split; intros Hb.
  - pose proof (bat1_eq cs dir fi hs p Hi Hcs x) as He. cbv zeta in He. rewrite (full_D1 cs p Hcs x Hx Hf), (full_S1 cs dir fi hs p Hi Hcs x Hx Hf) in He.
    rewrite Hno, Hnn, Hll in He. rewrite decide_True, decide_False, zdiv_pos in He by nia. cbn [rbind] in He. rewrite fdiv_pos in He by lia. cbn [rbind] in He. eexists. split; [exact He|].
    rewrite Qdiv_div by nia. apply Qdiv_eq; [repeat apply Z.mul_pos_pos; lia|lia|ring].
  - pose proof (bat2_eq cs dir fi hs p Hi Hcs x) as He. cbv zeta in He. rewrite (full_D2 cs dir fi hs p Hi Hcs x Hx Hf), (full_S2 cs dir fi hs p Hi Hcs x Hx Hf) in He.
    rewrite Hno, Hnn, Hll in He.
    assert (0 < Z.of_nat (length Ls) * (Z.of_nat (length Ls) - 1) * ((Z.of_nat (length Ns) - 1) * (Z.of_nat (length Ns) - 1))) by (repeat apply Z.mul_pos_pos; lia).
    rewrite decide_False, decide_False, zdiv_pos in He by lia. cbn [rbind] in He. rewrite fdiv_pos in He by lia. cbn [rbind] in He. eexists. split; [exact He|].
    rewrite Qdiv_div by lia. apply Qdiv_eq; [repeat apply Z.mul_pos_pos; lia|lia|ring].
Qed.
(** A complete network on three nodes and three layers (the documented value would be 2);
    a node with no pair of links; one layer only. *)
Local Open Scope string_scope.
Definition ex_bat : list call * mpx :=
  mcalls (new_mpx [CCat 1] false 0 true) ((fun it => MSet it 1) <$>
    [[n1; n2; sa]; [n1; n3; sa]; [n2; n3; sa]; [n1; n2; sb]; [n1; n3; sb]; [n2; n3; sb]; [n1; n2; NStr "sc"]; [n1; n3; NStr "sc"]; [n2; n3; NStr "sc"]]).
Example C61_example : mhist [CCat 1] false 0 true ex_bat.1 ex_bat.2 /\
  exists q r, lcc_battiston1 ex_bat.2 n1 = Ok (Some q) /\ lcc_battiston2 ex_bat.2 n1 = Ok (Some r) /\ (q == 1 # 2)%Q /\ (r == 1 # 2)%Q.
Proof. split; [apply mcalls_hist|]. do 2 eexists. split; [vm_compute; reflexivity|]. split; [vm_compute; reflexivity|]. split; by vm_compute. Qed.
Example C61_example_complete : complete ex_bat.2.
Proof.
  assert (mhist [CCat 1] false 0 true ex_bat.1 ex_bat.2) as Hh by apply mcalls_hist. pose proof (mhist_inv _ _ _ _ _ _ Hh) as Hi.
  intros l v w Hl Hv Hw Hne. apply (g_mlinked _ _ _ _ _ Hi eq_refl). apply (g_lays_mhas _ _ _ _ _ Hi eq_refl) in Hl. apply (g_nodes_mhas _ _ _ _ _ Hi) in Hv, Hw.
  assert (forallb (fun l => forallb (fun v => forallb (fun w => bool_decide (v = w) || lkb ex_bat.2 l v w) (mnodes ex_bat.2)) (mnodes ex_bat.2)) (lays ex_bat.2) = true) as H by by vm_compute.
  rewrite forallb_forall in H. apply elem_of_list_In in Hl, Hv, Hw. specialize (H l Hl). rewrite forallb_forall in H. specialize (H v Hv). rewrite forallb_forall in H. specialize (H w Hw).
  by rewrite bool_decide_false in H.
Qed.
Definition ex_bat2 : list call * mpx :=
  mcalls (new_mpx [CNone None] true 0 false) ((fun it => MSet it 1) <$> [[n1; n2; sa]; [n3; n1; sa]; [n2; n3; sb]; [n2; n1; sb]]).
Example C61_example_directed : mhist [CNone None] true 0 false ex_bat2.1 ex_bat2.2 /\ lcc_battiston2 ex_bat2.2 n1 = Ok None /\
  (exists q, lcc_battiston1 ex_bat2.2 n1 = Ok (Some q) /\ (q == 1)%Q) /\ lcc_battiston1 ex_bat2.2 n2 = Ok None /\
  lcc_battiston1 (mcalls (new_mpx [CCat 1] false 0 true) [MSet [n1; n2; sa] 1]).2 n1 = Err AssertionError.
Proof. split; [apply mcalls_hist|]. split; [by vm_compute|]. split; [|split; by vm_compute]. eexists. split; [vm_compute; reflexivity|]. by vm_compute. Qed.
Print Assumptions C61_battiston1.
Print Assumptions C61_battiston2.
Print Assumptions C61_complete_networks.
