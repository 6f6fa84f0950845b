(** * Property C101: averages of clustering coefficients *)
From Coq Require Import Lqa.
From Verif Require Import CcAvg PropsNet NetIter PropsMpx PropsCc PropsSuper.
Open Scope Z_scope.

Lemma fdiv_nat q n : n <> 0%nat -> fdiv q (inject_Z (Z.of_nat n)) = Ok (q / inject_Z (Z.of_nat n))%Q.
Proof. intros Hn. unfold fdiv. destruct (Qeq_bool _ _) eqn:E; [|done]. apply Qeq_bool_iff in E. unfold Qeq in E. simpl in E. lia. Qed.
Lemma ratios_zero (s : list (Z * Z)) : Forall (fun td => 0 <= td.2) s -> (exists td, td ∈ s /\ td.2 = 0) ->
  rmapM (fun td => zdiv (td.1) (td.2)) s = Err ZeroDivisionError.
Proof.
  induction 1 as [|[t d] s Hd Hs IH]; intros (td & Htd & E); [by apply elem_of_nil in Htd|]. cbn [rmapM fst snd] in *.
  destruct (decide (d = 0)) as [->|Hne]; [done|]. rewrite zdiv_pos by lia. cbn. rewrite IH; [done|].
  apply elem_of_cons in Htd as [->|Htd]; [by simpl in E|eauto].
Qed.
Lemma ratios_pos (s : list (Z * Z)) : Forall (fun td => 0 < td.2) s ->
  rmapM (fun td => zdiv (td.1) (td.2)) s = Ok ((fun td : Z * Z => inject_Z (td.1) / inject_Z (td.2))%Q <$> s).
Proof. induction 1 as [|[t d] s Hd Hs IH]; [done|]. cbn [rmapM fst snd] in *. rewrite zdiv_pos by done. cbn. by rewrite IH. Qed.

(** [cc_layers_avg]: if the node has fewer than two neighbours on some layer, a division by
    zero; otherwise TypeError in Python 3, where [tot] is an iterator.  If it were a list the result would
    be the average over the layers of the fraction of linked pairs of neighbours. *)
Theorem C101_layers_avg cs noe fi h p x : mhist cs false noe fi h p -> exists Ls,
  lists_exactly Ls (fun l => pA p l <> None) /\
  ((exists l, l ∈ Ls /\ forall v w, layer_link p l x v -> layer_link p l x w -> v = w) ->
     forall lists, cc_layers_avg lists p x = Err ZeroDivisionError) /\
  ((forall l, l ∈ Ls -> exists v w, layer_link p l x v /\ layer_link p l x w /\ v <> w) ->
     cc_layers_avg false p x = Err TypeError /\
     (Ls <> [] -> exists q cs, cc_layers_avg true p x = Ok q /\
        Forall2 (fun l c => exists D S,
          lists_exactly D (fun '(v, w) => layer_link p l x v /\ layer_link p l x w /\ v <> w) /\
          lists_exactly S (fun '(v, w) => (layer_link p l x v /\ layer_link p l x w /\ v <> w) /\ layer_link p l v w) /\
          D <> [] /\ (c == inject_Z (Z.of_nat (length S)) / inject_Z (Z.of_nat (length D)))%Q) Ls cs /\
        (q == foldr Qplus 0 cs / inject_Z (Z.of_nat (length Ls)))%Q)).
Proof.
  intros Hh. destruct (C66_cc_sequence cs noe fi h p x Hh) as (Ls & s & HLs & Es & HF). exists Ls. split; [done|]. split.
  - intros (l & Hl & Hone) lists. unfold cc_layers_avg. rewrite Es. cbn. rewrite ratios_zero; [done| |].
    + apply Forall_forall. intros td (i & Hi)%elem_of_list_lookup. destruct (Forall2_lookup_r _ _ _ _ _ HF Hi) as (l' & _ & D & S & _ & _ & _ & E). lia.
    + apply elem_of_list_lookup in Hl as [i Hi]. destruct (Forall2_lookup_l _ _ _ _ _ HF Hi) as (td & Htd & D & S & HD & _ & _ & E).
      exists td. split; [by eapply elem_of_list_lookup_2|]. destruct D as [|[v w] D]; [simpl in E; lia|]. exfalso.
      destruct (proj1 (proj2 HD (v, w)) ltac:(by left)) as (H1 & H2 & Hne). by apply Hne, Hone.
  - intros Htwo. assert (HP : Forall (fun td : Z * Z => 0 < td.2) s).
    { apply Forall_forall. intros td (i & Hi)%elem_of_list_lookup. destruct (Forall2_lookup_r _ _ _ _ _ HF Hi) as (l & Hl & D & S & HD & _ & _ & E).
      destruct (Htwo l) as (v & w & Hvw); [by eapply elem_of_list_lookup_2|]. assert ((v, w) ∈ D) as Hin by by apply HD.
      destruct D as [|? D]; [by apply elem_of_nil in Hin|]. simpl in E. lia. }
    unfold cc_layers_avg. rewrite Es. cbn. rewrite (ratios_pos s HP). cbn. split; [done|]. intros Hne.
    pose proof (Forall2_length _ _ _ HF) as Hlen. eexists _, ((fun td : Z * Z => inject_Z (td.1) / inject_Z (td.2))%Q <$> s). split.
    { apply fdiv_nat. rewrite fmap_length. destruct Ls, s; done. }
    split.
    + apply Forall2_fmap_r. apply Forall2_same_length_lookup_2; [done|]. intros i l td Hl Htd.
      destruct (Forall2_lookup_lr _ _ _ _ _ _ HF Hl Htd) as (D & S & HD & HS & E1 & E2). exists D, S. split; [done|]. split; [done|].
      assert (0 < td.2) as Hpos by (rewrite Forall_lookup in HP; by eapply HP). split; [intros ->; simpl in E2; lia|].
      apply Qdiv_eq; [done|lia|]. rewrite E1, E2. lia.
    + rewrite fmap_length, Hlen. reflexivity.
Qed.

(** [gcc_from_lcc] always raises TypeError in Python 3.  If [map] and [filter] returned lists it
    would be the average of [lcc] over the nodes for which it is defined, None if there are none. *)
Theorem C101_gcc_from_lcc_raises n f : gcc_from_lcc false n f = Err TypeError.
Proof. done. Qed.
Lemma defined_part (f : name -> res (option Q)) xs : NoDup xs -> (forall x, x ∈ xs -> exists o, f x = Ok o) ->
  exists v Ns, rmapM f xs = Ok v /\ NoDup Ns /\ (forall x, x ∈ Ns <-> x ∈ xs /\ exists q, f x = Ok (Some q)) /\
    Forall2 (fun x q => f x = Ok (Some q)) Ns (omap id v).
Proof.
  induction 1 as [|x xs Hx Hnd IH]; intros Hf; [exists [], []; split; [done|]; split; [by apply NoDup_nil|]; split; [|by constructor]; intros y; split; [by intros ?%elem_of_nil|by intros [? _]]|].
  destruct IH as (v & Ns & E & HN & HNs & HF). { intros y Hy. apply Hf. by right. }
  destruct (Hf x) as [o Ho]; [by left|]. cbn [rmapM]. rewrite Ho. cbn. rewrite E. cbn. exists (o :: v). destruct o as [q|].
  - exists (x :: Ns). split; [done|]. split; [|split; [|by constructor]].
    + apply NoDup_cons. split; [|done]. rewrite HNs. tauto.
    + intros y. rewrite !elem_of_cons, HNs. naive_solver.
  - exists Ns. split; [done|]. split; [done|]. split; [|done]. intros y. rewrite HNs, elem_of_cons. naive_solver congruence.
Qed.
Theorem C101_gcc_from_lcc asp noe dir fi h n f : hist asp noe dir fi h n -> (forall x, has_elem n 0 x -> exists o, f x = Ok o) ->
  exists Ns qs, lists_exactly Ns (fun x => has_elem n 0 x /\ exists q, f x = Ok (Some q)) /\
    Forall2 (fun x q => f x = Ok (Some q)) Ns qs /\
    (Ns = [] -> gcc_from_lcc true n f = Ok None) /\
    (Ns <> [] -> exists r, gcc_from_lcc true n f = Ok (Some r) /\ (r == foldr Qplus 0 qs / inject_Z (Z.of_nat (length Ns)))%Q).
Proof.
  intros Hh Hf. pose proof (hist_good _ _ _ _ _ _ Hh) as Hg.
  destruct (defined_part f (net_nodes n)) as (v & Ns & E & HN & HNs & HF).
  { destruct Hg as [HS _]. unfold net_nodes. destruct (slices n !! 0%nat) as [sl0|] eqn:E0; [|constructor]. simpl. eapply Forall_lookup_1; [apply HS|exact E0]. }
  { intros x Hx. apply Hf. by rewrite has_elem_sl, <- net_nodes_sl. }
  pose proof (Forall2_length _ _ _ HF) as Hlen.
  exists Ns, (omap id v). split; [split; [done|]; intros x; by rewrite HNs, has_elem_sl, <- net_nodes_sl|]. split; [done|].
  unfold gcc_from_lcc. rewrite E. cbn [rbind]. rewrite <- Hlen. split.
  - intros ->. done.
  - intros Hne. rewrite decide_True by (destruct Ns; [done|simpl; lia]). rewrite fdiv_nat by (by destruct Ns). eexists. split; [reflexivity|reflexivity].
Qed.
(** With [lcc] itself, in an undirected network without aspects: the result is between 0 and 1. *)
Theorem C101_mean_lcc_unit noe fi h n r : hist 0 noe false fi h n -> gcc_from_lcc true n (fun x => lcc n [x]) = Ok (Some r) -> (0 <= r <= 1)%Q.
Proof.
  intros Hh Hr.
  assert (Hval : forall x, (lcc n [x] = Ok None) \/ exists q, lcc n [x] = Ok (Some q) /\ (0 <= q <= 1)%Q).
  { intros x. destruct (hist_inv _ _ _ _ _ _ Hh) as [_ _ Ha _ Hd _]. pose proof (hist_good _ _ _ _ _ _ Hh) as Hg.
    destruct (iter_total_exact n [x] None Hg I) as [HN HE].
    destruct (C40_local_clustering n [x] (iter_total n [x] None)) as [H1 H2].
    - by exists 0%nat, noe, false, fi, h.
    - done.
    - by rewrite Ha.
    - split; [done|]. intros b. rewrite HE. split.
      + intros [[?|Hb] _]; [done|]. apply linked_lnk in Hb; [|done]. apply linked_lnk; [done|]. by rewrite (wfL_sym n (proj2 Hg) Hd).
      + intros Hb. split; [by left|done].
    - destruct (decide (length (iter_total n [x] None) < 2)%nat) as [Hlt|Hge]; [left; auto|right]. destruct H2 as (q & P & E & _ & _ & Hq); [lia|eauto]. }
  destruct (C101_gcc_from_lcc 0 noe false fi h n (fun x => lcc n [x]) Hh) as (Ns & qs & _ & HF & H0 & H1).
  { intros x _. destruct (Hval x) as [?|(q & ? & _)]; eauto. }
  destruct (decide (Ns = [])) as [Hn|Hn]; [rewrite (H0 Hn) in Hr; done|]. destruct (H1 Hn) as (r' & E & Er). rewrite E in Hr. injection Hr as ->.
  assert (Hq : (0 <= foldr Qplus 0 qs <= inject_Z (Z.of_nat (length Ns)))%Q).
  { clear -HF Hval. induction HF as [|x q Ns qs Hx HF IH]; [split; apply Qle_refl|]. cbn [foldr length].
    destruct (Hval x) as [?|(q' & E' & Hq')]; [congruence|]. assert (q' = q) as -> by congruence.
    rewrite Nat2Z.inj_succ. unfold Z.succ. rewrite inject_Z_plus. split; [lra|]. change (inject_Z 1) with 1%Q. lra. }
  rewrite Er. assert (0 < inject_Z (Z.of_nat (length Ns)))%Q as Hp by (destruct Ns; [done|]; unfold Qlt; simpl; lia).
  split; [apply Qle_shift_div_l; [done|]; lra|apply Qle_shift_div_r; [done|]; lra].
Qed.
Example C101_example :
  hist 0 0 false true [OpSet [A1; A2] 3; OpSet [A1; A3] 1; OpSet [A2; A3] 2; OpSet [A1; NInt 4] 1; OpSet [NInt 4; NInt 5] 1] ex_lcc /\
  (exists q, gcc_from_lcc true ex_lcc (fun x => lcc ex_lcc [x]) = Ok (Some q) /\ (q == 7 # 12)%Q) /\
  mhist [CCat 1; CNone None] false 0 false ex_super.1 ex_super.2 /\
  (exists q, cc_layers_avg true ex_super.2 n1 = Ok q /\ (q == 1 # 2)%Q) /\
  cc_layers_avg false ex_super.2 n1 = Err TypeError /\ cc_layers_avg false ex_super.2 n2 = Err ZeroDivisionError.
Proof.
  split; [apply run_hist0|]. split; [eexists; split; [vm_compute; reflexivity|by vm_compute]|]. split; [apply mcalls_hist|].
  split; [eexists; split; [vm_compute; reflexivity|by vm_compute]|]. split; vm_compute; reflexivity.
Qed.
Print Assumptions C101_layers_avg.
Print Assumptions C101_gcc_from_lcc_raises.
Print Assumptions C101_gcc_from_lcc.
Print Assumptions C101_mean_lcc_unit.
