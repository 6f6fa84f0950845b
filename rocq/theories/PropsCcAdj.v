(** * C79-C81: the matrix versions of the walk counts and of the clustering coefficients *)
From Verif Require Import CcAdjFacts MpxHist MpxFacts ModelsFacts CcAgg CcBarrett PropsCc PropsAw PropsMpxEdges PropsTrans NetEdges TransFacts MpxIter MpxEdges PropsMpxPlain.
From Coq Require Import Lqa.
Open Scope Z_scope.

(** ** Specification *)
(** The closed walks along the words [Ws] from the node-layer [a]. *)
Definition counts (V : list nl) (a : nl) (Ws : list (list (nl -> nl -> Z))) : Z := zsumf (fun W => mprod V W a a) Ws.
(** The walks along the words [Ws] that end elsewhere than they start, summed. *)
Definition opened (V : list nl) (Ws : list (list (nl -> nl -> Z))) : Z :=
  zsumf (fun a => zsumf (fun b => if decide (a = b) then 0 else zsumf (fun W => mprod V W a b) Ws) V) V.
(** The quotient of two counts as numpy computes it. *)
Definition quotient (r : pfloat) (t d : Z) : Prop :=
  (d <> 0 -> exists q, r = PNum q /\ (q * inject_Z d == inject_Z t)%Q) /\
  (d = 0 -> t = 0 -> r = PNan) /\ (d = 0 -> 0 < t -> r = PInf true) /\ (d = 0 -> t < 0 -> r = PInf false).
(** The open walks of the three coefficients of Moreno et al. *)
Definition open1 {M : Type} (A C : M) : list (list M) := [[A; A]].
Definition open2 {M : Type} (A C : M) : list (list M) := [[A; A; C]; [C; A; C; A]; [A; C; A]; [C; A; A; C]; [A; C; A; C]].
Definition open3 {M : Type} (A C : M) : list (list M) := [[A; C; A; C]; [C; A; C; A; C]].

(** ** Facts *)
Lemma two_two w fi h p : pinv [CCat w] false 0 fi h p -> two_nodes p <-> two (mnodes p).
Proof. intros Hi. unfold two_nodes, two. by setoid_rewrite (mhas_0 w fi h p _ Hi). Qed.
Lemma grid_N w fi h p N : pinv [CCat w] false 0 fi h p -> supra_nodes (mslices p) = Ok N -> node_layer_grid p N.
Proof.
  intros Hi HN. destruct (grid_ex w fi h p Hi N HN) as [H1 H2]. split; [done|]. intros a. rewrite H2. unfold in_grid.
  by setoid_rewrite (mhas_0 w fi h p _ Hi); setoid_rewrite (mhas_1 w fi h p _ Hi).
Qed.
Lemma aw_sums N a c y : NoDup N -> rmapM mat_sum (aw_terms (tab N a) (tab N c) (tab N y)) =
  Ok ((fun Ws => tab N (fun u v => zsumf (fun W => mprod N W u v) Ws)) <$> [walks1 a c y; walks2 a c y; walks3 a c y]).
Proof.
  intros HN. pose proof (tab_sum N (a, [y; a]) [] HN) as E1. pose proof (tab_sum N (a, [y; c; a; c]) [(a, [c; y; a; c]); (a, [c; y; c; a])] HN) as E2.
  pose proof (tab_sum N (a, [c; y; c; a; c]) [] HN) as E3. unfold aw_terms. cbn [rmapM]. unfold tw in E1, E2, E3. cbn [fmap list_fmap fst snd] in E1, E2, E3.
  rewrite E1, E2, E3. reflexivity.
Qed.
Definition morenos {M : Type} (A C X : M) : list (list M) :=
  [[A; X; C; A; C]; [C; A; C; X; A]; [A; C; X; A; C]; [C; A; X; C; A]; [A; C; X; C; A]].
Definition morenos3 {M : Type} (A C X : M) : list (list M) := [[A; C; X; C; A; C]; [C; A; C; X; C; A]].
Lemma moreno_sums N a c y : NoDup N -> rmapM mat_sum (moreno_terms (tab N a) (tab N c) (tab N y)) =
  Ok ((fun Ws => tab N (fun u v => zsumf (fun W => mprod N W u v) Ws)) <$> [walks1 a c y; morenos a c y; morenos3 a c y]).
Proof.
  intros HN. pose proof (tab_sum N (a, [y; a]) [] HN) as E1. pose proof (tab_sum N (a, [y; c; a; c]) [(c, [a; c; y; a]); (a, [c; y; a; c]); (c, [a; y; c; a]); (a, [c; y; c; a])] HN) as E2.
  pose proof (tab_sum N (a, [c; y; c; a; c]) [(c, [a; c; y; c; a])] HN) as E3. unfold moreno_terms. cbn [rmapM]. unfold tw in E1, E2, E3. cbn [fmap list_fmap fst snd] in E1, E2, E3.
  rewrite E1, E2, E3. reflexivity.
Qed.
Lemma open_sums N a c : NoDup N -> rmapM mat_sum (moreno_opens (tab N a) (tab N c)) =
  Ok ((fun Ws => tab N (fun u v => zsumf (fun W => mprod N W u v) Ws)) <$> [open1 a c; open2 a c; open3 a c]).
Proof.
  intros HN. pose proof (tab_sum N (a, [a]) [] HN) as E1. pose proof (tab_sum N (a, [a; c]) [(c, [a; c; a]); (a, [c; a]); (c, [a; a; c]); (a, [c; a; c])] HN) as E2.
  pose proof (tab_sum N (a, [c; a; c]) [(c, [a; c; a; c])] HN) as E3. unfold moreno_opens. cbn [rmapM]. unfold tw in E1, E2, E3. cbn [fmap list_fmap fst snd] in E1, E2, E3.
  rewrite E1, E2, E3. reflexivity.
Qed.
Lemma np_quotient n t d : n <> 0%nat -> exists r, np_div n t d = Ok r /\ quotient r t d.
Proof.
  intros Hn. unfold np_div, quotient. destruct (decide (d = 0)) as [->|Hd].
  - rewrite decide_False by done. eexists. split; [done|]. split; [done|]. split; [intros _ ->; by rewrite decide_True|]. split; intros _ Ht.
    + rewrite decide_False by lia. f_equal. by apply Z.ltb_lt.
    + rewrite decide_False by lia. f_equal. apply Z.ltb_ge. lia.
  - eexists. split; [done|]. split; [|done]. intros _. eexists. split; [done|]. field. intros E. apply Hd. by apply (inject_Z_injective d 0).
Qed.

Definition goodw (u : list letter) : Prop := okw u /\ first u.
Section Words.
  Context (w : Z) (fi : bool) (h : list call) (p : mpx) (Hi : pinv [CCat w] false 0 fi h p) (Hs : no_loops p).
  Context (N : list nl) (HN : supra_nodes (mslices p) = Ok N).
  Context (V : list nl) (HV : lists_exactly V (mexists p)) (A C F : nl -> nl -> Z)
    (HA : weighs p (stepA p) A) (HC : weighs p (stepC p) C) (HF : indicates (stepF p) F).
  Local Notation wa := (Wa p). Local Notation wc := (Wc w p).
  Local Notation IN := (lval wa wc Wf). Local Notation IV := (lval A C F).
  Lemma counts_eq Us a : Forall goodw Us -> a ∈ N -> counts N a ((fun u : list letter => IN <$> u) <$> Us) = counts V a ((fun u : list letter => IV <$> u) <$> Us).
  Proof using All.
    intros HU Ha. unfold counts. induction HU as [|u Us [H1 H2] _ IH]; [done|]. cbn [fmap list_fmap]. rewrite !zsumf_cons. f_equal; [|exact IH].
    by apply (closed_eq w fi h p Hi Hs N HN V HV A C F HA HC HF).
  Qed.
  Lemma closed_VN Us : Forall goodw Us -> zsumf (fun a => counts N a ((fun u : list letter => IN <$> u) <$> Us)) N = closed V V ((fun u : list letter => IV <$> u) <$> Us).
  Proof using All.
    intros HU. rewrite (sum_VN w fi h p Hi N HN V HV).
    - unfold closed. rewrite zsumf_swap. apply zsumf_ext. intros a Ha. apply counts_eq; [done|]. by apply (V_in_N w fi h p Hi N HN V HV).
    - intros a Ha Hn. unfold counts. induction HU as [|u Us [H1 H2] _ IH]; [done|]. cbn [fmap list_fmap]. rewrite zsumf_cons.
      destruct (first_out w fi h p Hi Hs N HN V HV A C F HA HC u a a H2 Ha Hn) as [-> _]. exact IH.
  Qed.
  Lemma words_N : cycle_words wa wc Wf = (fun u : list letter => IN <$> u) <$> cycle_words LA LC LF. Proof. done. Qed.
  Lemma cycle_eq a : a ∈ N -> (fun W => mprod N W a a) <$> cycle_words wa wc Wf = (fun W => mprod V W a a) <$> cycle_words A C F.
  Proof using All.
    intros Ha. change (cycle_words wa wc Wf) with ((fun u : list letter => IN <$> u) <$> cycle_words LA LC LF).
    change (cycle_words A C F) with ((fun u : list letter => IV <$> u) <$> cycle_words LA LC LF). rewrite <- !list_fmap_compose.
    assert (Forall goodw (cycle_words LA LC LF)) as HG by (by repeat constructor). induction HG as [|u Us [H1 H2] _ IH]; [done|]. cbn [fmap list_fmap]. f_equal; [|exact IH].
    by apply (closed_eq w fi h p Hi Hs N HN V HV A C F HA HC HF).
  Qed.
  (** Reversed walks *)
  Lemma rev_diag Ms a : Forall (msym N) Ms -> a ∈ N -> mprod N (reverse Ms) a a = mprod N Ms a a.
  Proof using Hi HN. intros HM Ha. apply mprod_rev; [by apply (N_nodup w fi h p Hi)|done..]. Qed.
  Lemma sym_IN x : msym N (IN x).
  Proof using Hi HN.
    destruct x; [by apply (wa_sym w fi h p Hi)|by apply (wc_sym w fi h p Hi)|].
    intros a b (x & l & -> & _ & _)%(N_grid w fi h p Hi N HN) (y & l2 & -> & _ & _)%(N_grid w fi h p Hi N HN). simpl.
    destruct (decide _) as [[<- Hne]|Hno]; [by rewrite decide_True by done|]. rewrite decide_False; [done|]. intros [-> ?]. by apply Hno.
  Qed.
  Lemma moreno_rev x a : a ∈ N -> counts N a (morenos wa wc (IN x)) = counts N a (moreno2 wa wc (IN x)) /\
    counts N a (morenos3 wa wc (IN x)) = counts N a (moreno3 wa wc (IN x)).
  Proof using Hi HN.
    intros Ha. pose proof (sym_IN LA) as S1. pose proof (sym_IN LC) as S2. pose proof (sym_IN x) as S3. cbn [lval] in S1, S2.
    pose proof (rev_diag [wa; IN x; wc; wa; wc] a ltac:(by repeat constructor) Ha) as E1.
    pose proof (rev_diag [wa; wc; IN x; wa; wc] a ltac:(by repeat constructor) Ha) as E2.
    pose proof (rev_diag [wa; wc; IN x; wc; wa; wc] a ltac:(by repeat constructor) Ha) as E3.
    change (reverse [wa; IN x; wc; wa; wc]) with [wc; wa; wc; IN x; wa] in E1. change (reverse [wa; wc; IN x; wa; wc]) with [wc; wa; IN x; wc; wa] in E2.
    change (reverse [wa; wc; IN x; wc; wa; wc]) with [wc; wa; wc; IN x; wc; wa] in E3.
    unfold counts, morenos, moreno2, morenos3, moreno3. rewrite !zsumf_cons, !zsumf_nil. lia.
  Qed.
End Words.

(** The matrices of weights exist. *)
Lemma reads_fun p a b v : mreads p a b v -> length a = S (maspects p) /\ length b = S (maspects p) /\ pget_pair p a b = Ok v.
Proof.
  intros Hr. pose proof Hr as (item & Hn & _). assert (length a = S (maspects p) /\ length b = S (maspects p)) as [H1 H2] by (by destruct (names_link_inv _ _ _ _ Hn) as (? & ? & _)).
  split; [done|]. split; [done|]. by apply mreads_pair in Hr.
Qed.
Lemma weighs_ex p (P : nl -> nl -> Prop) `{!forall a b, Decision (P a b)} : exists M, weighs p (fun a b => mlinked p a b /\ P a b) M.
Proof.
  exists (fun a b => if decide (length a = S (maspects p) /\ length b = S (maspects p) /\ P a b) then match pget_pair p a b with Ok v => if decide (v = mnoe p) then 0 else v | _ => 0 end else 0).
  intros a b. destruct (decide (length a = S (maspects p) /\ length b = S (maspects p) /\ P a b)) as [(H1 & H2 & HP)|Hno].
  - destruct (pget_pair p a b) as [v|e] eqn:E.
    + destruct (decide (v = mnoe p)) as [->|Hv].
      * right. split; [|done]. intros [(v & (_ & _ & Hr)%reads_fun & Hne) _]. congruence.
      * left. assert (mreads p a b v) as Hr by (by apply mreads_pair). split; [|done]. split; [by exists v|done].
    + right. split; [|done]. intros [(v & (_ & _ & Hr)%reads_fun & Hne) _]. congruence.
  - right. split; [|done]. intros [(v & (? & ? & Hr)%reads_fun & Hne) ?]. by apply Hno.
Qed.
Local Instance tail_dec (a b : nl) : Decision ((fun a b : nl => tail a = tail b) a b). Proof. cbv beta. apply _. Defined.
Local Instance ntail_dec (a b : nl) : Decision ((fun a b : nl => tail a <> tail b) a b). Proof. cbv beta. apply _. Defined.
Lemma matrices w fi h p : mhist [CCat w] false 0 fi h p ->
  exists V A C F, lists_exactly V (mexists p) /\ weighs p (stepA p) A /\ weighs p (stepC p) C /\ indicates (stepF p) F.
Proof.
  intros Hh. pose proof (nlS_lists w fi h p Hh) as HV. exists (nlS p). destruct (weighs_ex p (fun a b : nl => tail a = tail b) (H:=tail_dec)) as [A HA]. destruct (weighs_ex p (fun a b : nl => tail a <> tail b) (H:=ntail_dec)) as [C HC].
  exists A, C, (fun a b => if decide (a ∈ nlS p /\ b ∈ nlS p /\ tail a = tail b /\ a <> b) then 1 else 0). split; [done|]. split; [done|]. split; [done|].
  intros a b. unfold stepF. destruct HV as [_ HV]. rewrite <- !HV. destruct (decide _) as [?|?]; [by left|by right].
Qed.
(** With unit weights they are 0/1 matrices on the existing node-layers. *)
Section Unit.
  Context (fi : bool) (h : list call) (p : mpx) (Hh : mhist [CCat 1] false 0 fi h p) (Hs : no_loops p) (Hw : weights p (fun v => v = 0 \/ v = 1)).
  Context (V : list nl) (HV : lists_exactly V (mexists p)) (A C A' C' F : nl -> nl -> Z)
    (HA : weighs p (stepA p) A) (HC : weighs p (stepC p) C) (HA' : indicates (stepA p) A') (HC' : indicates (stepC p) C').
  Lemma link_val a b v : a ∈ V -> b ∈ V -> mreads p a b v -> v = 0 \/ v = 1.
  Proof using Hh Hs Hw HV.
    pose proof (mhist_inv _ _ _ _ _ _ Hh) as Hi. intros Ha%HV Hb%HV.
    assert (forall a, mexists p a -> exists x l, a = [x; l] /\ l ∈ lays p) as HG.
    { intros c Hc. destruct (mexists_psl p _ (pi_wf _ _ _ _ _ _ Hi) Hc) as (Hl & _). rewrite (pinv_asp _ _ _ _ _ _ Hi) in Hl.
      destruct c as [|x [|l []]]; try done. exists x, l. split; [done|]. by apply (el_in 1 fi h p Hi x l), (el_1 1 fi h p Hi). }
    apply HG in Ha as (x & l & -> & Hl), Hb as (y & l2 & -> & Hl2). rewrite mreads_pair by (rewrite (pinv_asp _ _ _ _ _ _ Hi); done).
    rewrite <- (pgetitem_pair p [x; y; l; l2]) by apply (names4 1 fi h p Hi). rewrite (read_grid 1 fi h p Hi Hs) by done. intros [= <-]. unfold Wa, Wc.
    destruct (decide (l = l2)) as [<-|Hne].
    - rewrite decide_False by (by intros (_ & ? & _)). rewrite Z.add_0_r. apply (weights_wt p (fun v => v = 0 \/ v = 1)); [done|by left].
    - destruct (decide _); [by right|by left].
  Qed.
  Lemma unit_eq P M M' a b : weighs p (fun a b => mlinked p a b /\ P a b) M -> indicates (fun a b => mlinked p a b /\ P a b) M' -> a ∈ V -> b ∈ V -> M a b = M' a b.
  Proof using Hh Hs Hw HV.
    intros H1 H2 Ha Hb. destruct (H1 a b) as [[Hl Hr]|[Hn ->]], (H2 a b) as [[Hl2 ->]|[Hn2 ->]]; try done.
    destruct Hl as [(v & Hv & Hne) _]. apply reads_fun in Hv as (_ & _ & Hv). pose proof Hr as (_ & _ & Hr')%reads_fun.
    pose proof (pi_noe _ _ _ _ _ _ (mhist_inv _ _ _ _ _ _ Hh)). destruct (link_val a b (M a b) Ha Hb Hr); [congruence|done].
  Qed.
  Lemma unit_word u : forall a b, a ∈ V -> b ∈ V -> mprod V (lval A C F <$> u) a b = mprod V (lval A' C' F <$> u) a b.
  Proof using All.
    induction u as [|x u IH]; intros a b Ha Hb; [done|]. cbn [fmap list_fmap mprod]. unfold mmul. apply zsumf_ext. intros c Hc. f_equal; [|by apply IH].
    destruct x; cbn [lval]; [by apply (unit_eq _ _ _ _ _ HA HA')|by apply (unit_eq _ _ _ _ _ HC HC')|done].
  Qed.
  Lemma unit_closed Us : closed V V ((fun u : list letter => lval A C F <$> u) <$> Us) = closed V V ((fun u : list letter => lval A' C' F <$> u) <$> Us).
  Proof using All.
    unfold closed. induction Us as [|u Us IH]; [done|]. cbn [fmap list_fmap]. rewrite !zsumf_cons. f_equal; [|exact IH]. apply zsumf_ext. intros a Ha. by apply unit_word.
  Qed.
End Unit.

(** ** C79: the counts of walks by matrices *)
(** [cc_cycle_vector_adj(net,node,layer)] returns the ten closed walk counts, with the
    weights of the links as matrix entries, and its assertions hold. *)
Theorem C79_matrix_version w fi h p V A C F x l : mhist [CCat w] false 0 fi h p -> no_loops p -> sortable p -> two_nodes p ->
  lists_exactly V (mexists p) -> weighs p (stepA p) A -> weighs p (stepC p) C -> indicates (stepF p) F ->
  mhas p 0 x -> mhas p 1 l -> (fi = true -> w = 1) ->
  cc_cycle_vector_adj p x l = Ok ((fun W => mprod V W [x; l] [x; l]) <$> cycle_words A C F).
Proof.
  intros Hh Hs Hso H2 HV HA HC HF Hx Hl Hw. pose proof (mhist_inv _ _ _ _ _ _ Hh) as Hi. apply (sort_ok p) in Hso as [N HN]. apply (two_two w fi h p Hi) in H2.
  assert ([x; l] ∈ N) as Hin by (apply (grid_N w fi h p N Hi HN); eauto).
  rewrite (adj_value w fi h p Hi Hs N HN x l H2 Hin), (cycle_eq w fi h p Hi Hs N HN V HV A C F HA HC HF) by done.
  assert (checks fi p ((fun W => mprod V W [x; l] [x; l]) <$> cycle_words A C F) = Ok tt) as ->; [|done].
  rewrite <- (cycle_eq w fi h p Hi Hs N HN V HV A C F HA HC HF) by done. unfold cycle_words. cbn [fmap list_fmap checks]. destruct fi; [|done]. specialize (Hw eq_refl). subst w.
  pose proof (fi1 1 h p Hi N HN _ Hin) as E1. pose proof (fi2 1 h p Hi N HN _ Hin) as E2. pose proof (fi3 1 h p Hi N HN _ Hin) as E3.
  rewrite E1, E2, E3, !Z.eqb_refl. cbn [passert rbind]. rewrite E1.
  replace (_ =? _) with true by (symmetry; apply Z.eqb_eq; lia). cbn [passert rbind]. replace (_ =? _) with true by (symmetry; apply Z.eqb_eq; lia). done.
Qed.
Theorem C79_matrices_exist w fi h p : mhist [CCat w] false 0 fi h p ->
  exists V A C F, lists_exactly V (mexists p) /\ weighs p (stepA p) A /\ weighs p (stepC p) C /\ indicates (stepF p) F.
Proof. apply matrices. Qed.
(** On networks with unit weights it returns the same as [cc_cycle_vector_bf(net,node,layer)]. *)
Theorem C79_same_as_brute_force fi h p x l : mhist [CCat 1] false 0 fi h p -> no_loops p -> sortable p -> two_nodes p ->
  weights p (fun v => v = 0 \/ v = 1) -> mhas p 0 x -> mhas p 1 l ->
  exists v, cc_cycle_vector_adj p x l = Ok v /\ cc_cycle_vector_bf p x l = Ok v.
Proof.
  intros Hh Hs Hso H2 Hw Hx Hl. destruct (matrices 1 fi h p Hh) as (V & A & C & F & HV & HA & HC & HF). pose proof (mhist_inv _ _ _ _ _ _ Hh) as Hi.
  rewrite (C79_matrix_version 1 fi h p V A C F x l) by done. eexists. split; [done|]. destruct (decide ([x; l] ∈ V)) as [Hin|Hno].
  - destruct (C42_matrices_exist 1 fi h p Hh ltac:(done)) as (V' & A' & C' & F' & HV' & HA' & HC' & HF').
    rewrite (C42_brute_force 1 fi h p x l V A' C' F); [|done..|by apply HV]. f_equal.
    change (cycle_words A C F) with ((fun u : list letter => lval A C F <$> u) <$> cycle_words LA LC LF).
    change (cycle_words A' C' F) with ((fun u : list letter => lval A' C' F <$> u) <$> cycle_words LA LC LF). rewrite <- !list_fmap_compose.
    apply list_fmap_ext. intros _ u _. simpl. symmetry. by apply (unit_word fi h p Hh Hs Hw V HV).
  - rewrite (proj1 (C42_brute_force_absent 1 fi h p x l Hh (fun He => Hno (proj2 (proj2 HV _) He))) Hl). f_equal. apply (sort_ok p) in Hso as [N HN].
    assert ([x; l] ∈ N) as HN' by (apply (grid_N 1 fi h p N Hi HN); eauto).
    assert (forall u, goodw u -> mprod V (lval A C F <$> u) [x; l] [x; l] = 0) as H0.
    { intros u [_ Hu]. by destruct (first_out 1 fi h p Hi Hs N HN V HV A C F HA HC u [x; l] [x; l] Hu HN' Hno) as [_ E]. }
    change (cycle_words A C F) with ((fun u : list letter => lval A C F <$> u) <$> cycle_words LA LC LF). rewrite <- list_fmap_compose.
    assert (Forall goodw (cycle_words LA LC LF)) as HG by (by repeat constructor). change 10%nat with (length (cycle_words LA LC LF)).
    induction HG as [|u Us Hu _ IH]; [done|]. cbn [fmap list_fmap length replicate]. f_equal; [by rewrite <- (H0 u Hu)|exact IH].
Qed.
(** In a fully interconnected network an assertion fails if the coupling weight is not 1
    and the node-layer starts a path of the kind link, anything, link back. *)
Theorem C79_coupling_weight_refuted w h p V A F x l : mhist [CCat w] false 0 true h p -> no_loops p -> sortable p -> two_nodes p ->
  lists_exactly V (mexists p) -> weighs p (stepA p) A -> indicates (stepF p) F ->
  mhas p 0 x -> mhas p 1 l -> w * w <> 1 -> (exists l2, mhas p 1 l2 /\ l2 <> l) -> mprod V [A; F; A] [x; l] [x; l] <> 0 ->
  cc_cycle_vector_adj p x l = Err AssertionError.
Proof.
  intros Hh Hs Hso H2 HV HA HF Hx Hl Hw (l2 & Hl2 & Hne) Hz. pose proof (mhist_inv _ _ _ _ _ _ Hh) as Hi. apply (sort_ok p) in Hso as [N HN]. apply (two_two w true h p Hi) in H2.
  assert ([x; l] ∈ N) as Hin by (apply (grid_N w true h p N Hi HN); eauto).
  destruct (weighs_ex p (fun a b : nl => tail a <> tail b) (H:=ntail_dec)) as [C HC].
  rewrite (adj_value w true h p Hi Hs N HN x l H2 Hin). unfold cycle_words. cbn [fmap list_fmap checks].
  rewrite (fi1 w h p Hi N HN _ Hin), (fi2 w h p Hi N HN _ Hin), Z.eqb_refl. cbn [passert rbind].
  pose proof (closed_eq w true h p Hi Hs N HN V HV A C F HA HC HF [LA; LF; LA] [x; l] ltac:(done) ltac:(done) Hin) as E. cbn [fmap list_fmap lval] in E. rewrite E.
  assert (Z.of_nat (length (lays p)) - 1 <> 0) as Hb.
  { apply (mhas_1 w true h p _ Hi) in Hl, Hl2. destruct (lays p) as [|u [|v ls]]; [by apply not_elem_of_nil in Hl| |simpl length; lia].
    apply elem_of_list_singleton in Hl, Hl2. congruence. }
  replace (_ =? _) with false; [done|]. symmetry. apply Z.eqb_neq. set (b := Z.of_nat (length (lays p)) - 1) in *. set (z := mprod V _ _ _) in *. intros E'.
  assert (b * z * (w * w - 1) = 0) as E2 by lia. apply Z.mul_eq_0 in E2 as [E2|E2]; [|lia]. apply Z.mul_eq_0 in E2 as [?|?]; done.
Qed.
(** Errors: names of different kinds, an unknown node or layer, a single node. *)
Theorem C79_errors w fi h p x l : mhist [CCat w] false 0 fi h p -> no_loops p ->
  (~ sortable p -> cc_cycle_vector_adj p x l = Err TypeError) /\
  (sortable p -> ~ (mhas p 0 x /\ mhas p 1 l) -> cc_cycle_vector_adj p x l = Err ValueError) /\
  (sortable p -> ~ two_nodes p -> cc_cycle_vector_adj p x l = Err ValueError).
Proof.
  intros Hh Hs. pose proof (mhist_inv _ _ _ _ _ _ Hh) as Hi. split; [|split].
  - intros Hso. unfold cc_cycle_vector_adj. by rewrite (supra_unsortable w fi h p true Hi Hso).
  - intros [N HN]%(sort_ok p) Hno. apply (adj_unknown w fi h p Hi Hs N HN). intros Hin. apply (grid_N w fi h p N Hi HN) in Hin as (? & ? & [= <- <-] & ?). by apply Hno.
  - intros [N HN]%(sort_ok p) H2. rewrite (two_two w fi h p Hi) in H2. destruct (decide ([x; l] ∈ N)) as [Hin|Hno].
    + by apply (adj_few w fi h p Hi Hs N HN).
    + by apply (adj_unknown w fi h p Hi Hs N HN).
Qed.

(** ** C80: the coefficients of alternating walks by matrices *)
(** There are exactly two layers. *)
Definition two_layers (p : mpx) : Prop := exists l1 l2, l1 <> l2 /\ forall l, mhas p 1 l <-> l = l1 \/ l = l2.
Lemma two_layers_len w fi h p : mhist [CCat w] false 0 fi h p -> two_layers p <-> length (lays p) = 2%nat.
Proof.
  intros Hh. pose proof (mhist_inv _ _ _ _ _ _ Hh) as Hi. unfold two_layers. setoid_rewrite (mhas_1 w fi h p _ Hi). pose proof (NoDup_lays w fi h p Hi) as Hnd. split.
  - intros (l1 & l2 & Hne & H). assert (lays p ≡ₚ [l1; l2]) as E; [|by rewrite E].
    apply NoDup_Permutation; [done| |].
    + constructor; [by rewrite elem_of_list_singleton|]. apply NoDup_singleton.
    + intros l. rewrite H, !elem_of_cons. split; [tauto|]. intros [?|[?|[]%elem_of_nil]]; tauto.
  - intros Hl. destruct (lays p) as [|l1 [|l2 []]]; try done. exists l1, l2. apply NoDup_cons in Hnd as [H1 _]. rewrite elem_of_list_singleton in H1. split; [done|].
    intros l. rewrite !elem_of_cons. split; [|tauto]. intros [?|[?|[]%elem_of_nil]]; tauto.
Qed.
Section Aw.
  Context (w : Z) (fi : bool) (h : list call) (p : mpx) (Hh : mhist [CCat w] false 0 fi h p) (Hs : no_loops p).
  Context (N : list nl) (HN : supra_nodes (mslices p) = Ok N) (H2 : two_nodes p).
  Context (V : list nl) (HV : lists_exactly V (mexists p)) (A C F : nl -> nl -> Z)
    (HA : weighs p (stepA p) A) (HC : weighs p (stepC p) C) (HF : indicates (stepF p) F).
  Local Notation wa := (Wa p). Local Notation wc := (Wc w p).
  Let Hi := mhist_inv _ _ _ _ _ _ Hh.
  Lemma good1 x : Forall goodw (walks1 LA LC x) \/ x = LC. Proof. destruct x; [left|by right|left]; by repeat constructor. Qed.
  Lemma aw_value : gcc_aw_vector_adj p = Ok [(fun a => counts V a (walks1 A C A)) <$> N; (fun a => counts V a (walks1 A C F)) <$> N;
    (fun a => counts V a (walks2 A C A)) <$> N; (fun a => counts V a (walks2 A C F)) <$> N;
    (fun a => counts V a (walks3 A C A)) <$> N; (fun a => counts V a (walks3 A C F)) <$> N].
  Proof using All.
    unfold gcc_aw_vector_adj. rewrite (adj_mats_eq w fi h p Hi Hs N HN). cbn [rbind]. pose proof H2 as H2'. apply (two_two w fi h p Hi) in H2'.
    rewrite (full_many w fi h p Hi N H2' HN). cbn [rbind]. pose proof (N_nodup w fi h p Hi N HN) as Hnd. rewrite !aw_sums by done. cbn [rbind fmap list_fmap zip_with mbind list_bind id app].
    rewrite !tab_diag. f_equal.
    assert (forall Us, Forall goodw Us -> (fun a => zsumf (fun W => mprod N W a a) ((fun u : list letter => lval wa wc Wf <$> u) <$> Us)) <$> N =
      (fun a => counts V a ((fun u : list letter => lval A C F <$> u) <$> Us)) <$> N) as HE.
    { intros Us HU. apply list_fmap_ext. intros i a Ha%elem_of_list_lookup_2. by apply (counts_eq w fi h p Hi Hs N HN V HV A C F HA HC HF). }
    f_equal; [exact (HE (walks1 LA LC LA) ltac:(by repeat constructor))|]. f_equal; [exact (HE (walks1 LA LC LF) ltac:(by repeat constructor))|].
    f_equal; [exact (HE (walks2 LA LC LA) ltac:(by repeat constructor))|]. f_equal; [exact (HE (walks2 LA LC LF) ltac:(by repeat constructor))|].
    f_equal; [exact (HE (walks3 LA LC LA) ltac:(by repeat constructor))|]. f_equal; exact (HE (walks3 LA LC LF) ltac:(by repeat constructor)).
  Qed.
  Lemma sum_closed Us : Forall goodw Us -> zsum ((fun a => counts V a ((fun u : list letter => lval A C F <$> u) <$> Us)) <$> N) = closed V V ((fun u : list letter => lval A C F <$> u) <$> Us).
  Proof using All.
    intros HU. rewrite <- (closed_VN w fi h p Hi Hs N HN V HV A C F HA HC HF Us HU). change (zsum ((fun a => counts V a ?X) <$> N)) with (zsumf (fun a => counts V a X) N).
    apply zsumf_ext. intros a Ha. symmetry. by apply (counts_eq w fi h p Hi Hs N HN V HV A C F HA HC HF).
  Qed.
  Lemma aw_vec w1 w2 w3 : let c1 := ratio0 (closed V V (walks1 A C A)) (closed V V (walks1 A C F)) in
    let c2 := ratio0 (closed V V (walks2 A C A)) (closed V V (walks2 A C F)) in let c3 := ratio0 (closed V V (walks3 A C A)) (closed V V (walks3 A C F)) in
    gcc_aw_seplayers_adj p w1 w2 w3 = Ok (if decide (length (lays p) = 2%nat) then w1 * c1 + w2 * c2 else w1 * c1 + w2 * c2 + w3 * c3)%Q /\
    gcc_aw_seplayers_adj_vector p w1 w2 = Ok (if decide (length (lays p) = 2%nat) then inl (w1 * c1 + w2 * c2)%Q else inr (c1, c2, c3)).
  Proof using All.
    unfold gcc_aw_seplayers_adj, gcc_aw_seplayers_adj_vector. rewrite aw_value. cbn [rbind]. unfold pslices. rewrite (slices_eq w fi h p Hi). cbn [lookup list_lookup rbind]. unfold sum_ratio.
    pose proof (sum_closed (walks1 LA LC LA) ltac:(by repeat constructor)) as E1. change ((fun u : list letter => lval A C F <$> u) <$> walks1 LA LC LA) with (walks1 A C A) in E1.
    pose proof (sum_closed (walks1 LA LC LF) ltac:(by repeat constructor)) as E2. change ((fun u : list letter => lval A C F <$> u) <$> walks1 LA LC LF) with (walks1 A C F) in E2.
    pose proof (sum_closed (walks2 LA LC LA) ltac:(by repeat constructor)) as E3. change ((fun u : list letter => lval A C F <$> u) <$> walks2 LA LC LA) with (walks2 A C A) in E3.
    pose proof (sum_closed (walks2 LA LC LF) ltac:(by repeat constructor)) as E4. change ((fun u : list letter => lval A C F <$> u) <$> walks2 LA LC LF) with (walks2 A C F) in E4.
    pose proof (sum_closed (walks3 LA LC LA) ltac:(by repeat constructor)) as E5. change ((fun u : list letter => lval A C F <$> u) <$> walks3 LA LC LA) with (walks3 A C A) in E5.
    pose proof (sum_closed (walks3 LA LC LF) ltac:(by repeat constructor)) as E6. change ((fun u : list letter => lval A C F <$> u) <$> walks3 LA LC LF) with (walks3 A C F) in E6.
    rewrite E1, E2, E3, E4, E5, E6.
    split; reflexivity.
  Qed.
  (** With two layers there are no walks over three layers. *)
  Lemma three_zero X : length (lays p) = 2%nat -> X = A \/ X = F -> closed V V (walks3 A C X) = 0.
  Proof using All.
    intros Hl HX. assert (exists x, (x = LA \/ x = LF) /\ X = lval A C F x) as (x & Hx & ->) by (destruct HX as [-> | ->]; [exists LA|exists LF]; auto).
    change (walks3 A C (lval A C F x)) with ((fun u : list letter => lval A C F <$> u) <$> walks3 LA LC x). rewrite <- (sum_closed (walks3 LA LC x)) by (destruct Hx as [-> | ->]; by repeat constructor).
    change (zsum ((fun a => counts V a ?X) <$> N)) with (zsumf (fun a => counts V a X) N). apply zsumf_zero. intros a Ha.
    rewrite <- (counts_eq w fi h p Hi Hs N HN V HV A C F HA HC HF) by (try done; destruct Hx as [-> | ->]; by repeat constructor). unfold counts. cbn [walks3 fmap list_fmap]. rewrite zsumf_cons, zsumf_nil, Z.add_0_r.
    pose proof (wa_same w fi h p Hi N HN) as Sa. pose proof (wc_diff w fi h p Hi N HN) as Sc. assert (supp N same (lval wa wc Wf x)) as Sx by (destruct Hx as [-> | ->]; [done|apply (wf_same w fi h p Hi N HN)]).
    apply (diff_zero N); [done|]. cbn [lval]. apply supp_sd; [done|]. apply supp_ds; [done|]. apply supp_ss; [done|]. apply (supp_dd w fi h p Hi N HN); [done..|]. apply supp_sd; [done|].
    apply supp_ds; [done|]. apply supp_id.
  Qed.
End Aw.
Lemma ratio0_proper t d t' d' : t = t' -> d = d' -> (ratio0 t d == ratio0 t' d')%Q.
Proof. by intros -> ->. Qed.
(** [gcc_aw_vector_adj(net)] returns six lists with one entry for each combination of a
    node and a layer: the closed walks of each kind, and those closed by any node. *)
Theorem C80_vectors w fi h p V A C F : mhist [CCat w] false 0 fi h p -> no_loops p -> sortable p -> two_nodes p ->
  lists_exactly V (mexists p) -> weighs p (stepA p) A -> weighs p (stepC p) C -> indicates (stepF p) F ->
  exists nodes, node_layer_grid p nodes /\
    gcc_aw_vector_adj p = Ok [(fun a => counts V a (walks1 A C A)) <$> nodes; (fun a => counts V a (walks1 A C F)) <$> nodes;
      (fun a => counts V a (walks2 A C A)) <$> nodes; (fun a => counts V a (walks2 A C F)) <$> nodes;
      (fun a => counts V a (walks3 A C A)) <$> nodes; (fun a => counts V a (walks3 A C F)) <$> nodes].
Proof.
  intros Hh Hs [N HN]%(sort_ok p) H2 HV HA HC HF. exists N. split; [apply (grid_N w fi h p N (mhist_inv _ _ _ _ _ _ Hh) HN)|]. by apply (aw_value w fi h p Hh Hs N HN H2).
Qed.
(** [cc_aw_vector(net)] computes the same six numbers for the same combinations without
    matrices (weights other than 0 count as 1). *)
Theorem C80_loop_version w fi h p V A C F : mhist [CCat w] false 0 fi h p -> w <> 0 -> no_loops p ->
  lists_exactly V (mexists p) -> indicates (stepA p) A -> indicates (stepC p) C -> indicates (stepF p) F ->
  exists nodes, node_layer_grid p nodes /\
    cc_aw_vector p = Ok ((fun a => [counts V a (walks1 A C A); counts V a (walks1 A C F); counts V a (walks2 A C A); counts V a (walks2 A C F);
      counts V a (walks3 A C A); counts V a (walks3 A C F)]) <$> nodes).
Proof.
  intros Hh Hw Hs HV HA HC HF. pose proof (mhist_inv _ _ _ _ _ _ Hh) as Hi. pose proof (NoDup_lays w fi h p Hi) as NL.
  pose proof (pw_nd p (pi_wf _ _ _ _ _ _ Hi)) as NN. rewrite (slices_eq w fi h p Hi) in NN. apply Forall_cons in NN as [NN _].
  exists (mnodes p ≫= fun x => (fun l => [x; l]) <$> lays p). split.
  - split.
    + clear -NL NN. induction NN as [|x s Hx _ IH]; [constructor|]. cbn [mbind list_bind]. apply NoDup_app. split; [by apply NoDup_fmap_2; [intros ?? [=]|]|]. split; [|done].
      intros a (l & -> & _)%elem_of_list_fmap (y & (l2 & [= <- _] & _)%elem_of_list_fmap & Hy)%elem_of_list_bind. done.
    + intros a. rewrite elem_of_list_bind. setoid_rewrite elem_of_list_fmap. setoid_rewrite (mhas_0 w fi h p _ Hi). setoid_rewrite (mhas_1 w fi h p _ Hi). naive_solver.
  - unfold cc_aw_vector. rewrite (layers1_eq w fi h p Hi). cbn [rbind]. set (row := fun a : nl => [_; _; _; _; _; _]).
    rewrite (rmapM_ok _ (fun x => (fun l => row [x; l]) <$> lays p)).
    + cbn [rbind]. f_equal. clear. induction (mnodes p) as [|x s IH]; [done|]. cbn [fmap list_fmap concat mbind list_bind]. rewrite fmap_app. f_equal; [by rewrite <- list_fmap_compose|exact IH].
    + intros x Hx. apply rmapM_ok. intros l Hl. apply (mhas_0 w fi h p _ Hi) in Hx. apply (mhas_1 w fi h p _ Hi) in Hl.
      rewrite (C42_elementary_cycles w fi h p (Some x) (Some l) None V A C F (if decide ([x; l] ∈ V) then [[x; l]] else [])); [|done..|by intros ? [= <-]|by intros ? [= <-]|done|done|].
      * cbn [rbind]. rewrite aw_totals_words. unfold totals. f_equal. unfold row. destruct (decide ([x; l] ∈ V)) as [Hin|Hno].
        -- assert (forall Ws, closed V [[x; l]] Ws = counts V [x; l] Ws) as HE; [|by rewrite !HE].
           intros Ws. unfold closed, counts. apply zsumf_ext. intros W _. by rewrite zsumf_cons, zsumf_nil, Z.add_0_r.
        -- assert (forall Ws, closed V [] Ws = 0) as HE by (intros Ws; unfold closed; by apply zsumf_zero). rewrite !HE.
           assert (forall Ws, mprod V (A :: Ws) [x; l] [x; l] = 0) as H0.
           { intros Ws. cbn [mprod]. unfold mmul. apply zsumf_zero. intros c _. destruct (HA [x; l] c) as [[[Hl1 Ht] _]|[_ ->]]; [|lia].
             exfalso. apply Hno, HV. pose proof Hl1 as (v & (_ & Hlen & _)%reads_fun & _). rewrite (pinv_asp _ _ _ _ _ _ Hi) in Hlen. destruct c as [|y [|l2 []]]; try done. simpl in Ht. injection Ht as <-.
             apply (linked_intra w fi h p Hh Hs), (bl_el w fi h p Hi) in Hl1 as [Hel _]. by apply (el_1 w fi h p Hi). }
           unfold counts, walks1, walks2, walks3. rewrite !zsumf_cons, !zsumf_nil, !H0. done.
      * split; [destruct (decide _); [apply NoDup_singleton|constructor]|]. intros a. destruct (decide ([x; l] ∈ V)) as [Hin|Hno].
        -- rewrite elem_of_list_singleton. split; [intros ->; split; [by apply HV|]; split; by intros ? [= ->]|]. intros (He & H1 & H2). specialize (H1 _ eq_refl). specialize (H2 _ eq_refl).
           destruct (mexists_psl p _ (pi_wf _ _ _ _ _ _ Hi) He) as (Hla & _). rewrite (pinv_asp _ _ _ _ _ _ Hi) in Hla. destruct a as [|? [|? []]]; try done. simpl in *. congruence.
        -- split; [by intros ?%elem_of_nil|]. intros (He & H1 & H2). specialize (H1 _ eq_refl). specialize (H2 _ eq_refl). exfalso. apply Hno, HV.
           destruct (mexists_psl p _ (pi_wf _ _ _ _ _ _ Hi) He) as (Hla & _). rewrite (pinv_asp _ _ _ _ _ _ Hi) in Hla. destruct a as [|? [|? []]]; try done. simpl in *. congruence.
Qed.
(** With unit weights [gcc_aw_seplayers_adj(net,w1,w2,w3)] and [gcc_aw(net,w1,w2,w3)] return
    the same number. *)
Theorem C80_same_coefficient fi h p w1 w2 w3 : mhist [CCat 1] false 0 fi h p -> no_loops p -> sortable p -> two_nodes p -> weights p (fun v => v = 0 \/ v = 1) ->
  exists q q', gcc_aw_seplayers_adj p w1 w2 w3 = Ok q /\ gcc_aw p w1 w2 (Some w3) = Ok q' /\ (q == q')%Q.
Proof.
  intros Hh Hs [N HN]%(sort_ok p) H2 Hw. destruct (matrices 1 fi h p Hh) as (V & A & C & F & HV & HA & HC & HF).
  destruct (C42_matrices_exist 1 fi h p Hh ltac:(done)) as (V' & A' & C' & F' & _ & HA' & HC' & _).
  destruct (aw_vec 1 fi h p Hh Hs N HN H2 V HV A C F HA HC HF w1 w2 w3) as [E _]. rewrite E.
  destruct (C58_global 1 fi h p V A' C' F Hh ltac:(done) Hs HV HA' HC' HF (fun _ => Hw)) as [(c1 & c2 & c3 & _ & F1 & F2 & F3 & Hv) _].
  destruct (Hv w1 w2 w3) as (q & Hq & Eq). do 2 eexists. split; [done|]. split; [exact Hq|]. rewrite Eq.
  pose proof (unit_closed fi h p Hh Hs Hw V HV A C A' C' F HA HC HA' HC') as HU.
  pose proof (HU (walks1 LA LC LA)) as U1. pose proof (HU (walks1 LA LC LF)) as U2. pose proof (HU (walks2 LA LC LA)) as U3. pose proof (HU (walks2 LA LC LF)) as U4. pose proof (HU (walks3 LA LC LA)) as U5. pose proof (HU (walks3 LA LC LF)) as U6.
  change (closed V V (walks1 A C A) = closed V V (walks1 A' C' A')) in U1. change (closed V V (walks1 A C F) = closed V V (walks1 A' C' F)) in U2.
  change (closed V V (walks2 A C A) = closed V V (walks2 A' C' A')) in U3. change (closed V V (walks2 A C F) = closed V V (walks2 A' C' F)) in U4.
  change (closed V V (walks3 A C A) = closed V V (walks3 A' C' A')) in U5. change (closed V V (walks3 A C F) = closed V V (walks3 A' C' F)) in U6.
  rewrite <- U1, <- U2 in F1. rewrite <- U3, <- U4 in F2. rewrite <- U5, <- U6 in F3.
  assert (forall c t d, fraction c t d -> (ratio0 t d == c)%Q) as HR.
  { intros c t d (_ & Hc & H0). unfold ratio0. destruct (decide (d = 0)) as [->|Hd]; [by rewrite H0|]. rewrite <- Hc. field. intros Ed. apply Hd. by apply (inject_Z_injective d 0). }
  destruct (decide (length (lays p) = 2%nat)) as [Hl|Hl]; rewrite (HR _ _ _ F1), (HR _ _ _ F2); [|by rewrite (HR _ _ _ F3)].
  rewrite <- (HR _ _ _ F3). rewrite (three_zero 1 fi h p Hh Hs N HN H2 V HV A C F HA HC HF F Hl) by auto. unfold ratio0. rewrite decide_True by done. ring.
Qed.
(** With [returnCVector] the three coefficients are returned unless there are two layers;
    then the function returns one number, the weighted sum. *)
Theorem C80_vector_flag fi h p w1 w2 : mhist [CCat 1] false 0 fi h p -> no_loops p -> sortable p -> two_nodes p -> weights p (fun v => v = 0 \/ v = 1) ->
  (~ two_layers p -> exists c1 c2 c3 d1 d2 d3, gcc_aw_seplayers_adj_vector p w1 w2 = Ok (inr (c1, c2, c3)) /\
    gcc_aw_vector p = Ok (d1, d2, d3) /\ (c1 == d1 /\ c2 == d2 /\ c3 == d3)%Q) /\
  (two_layers p -> exists q d1 d2 d3, gcc_aw_seplayers_adj_vector p w1 w2 = Ok (inl q) /\ gcc_aw_vector p = Ok (d1, d2, d3) /\ (q == w1 * d1 + w2 * d2)%Q).
Proof.
  intros Hh Hs [N HN]%(sort_ok p) H2 Hw. destruct (matrices 1 fi h p Hh) as (V & A & C & F & HV & HA & HC & HF). rewrite (two_layers_len 1 fi h p Hh).
  destruct (C42_matrices_exist 1 fi h p Hh ltac:(done)) as (V' & A' & C' & F' & _ & HA' & HC' & _).
  destruct (aw_vec 1 fi h p Hh Hs N HN H2 V HV A C F HA HC HF w1 w2 0%Q) as [_ E]. rewrite E.
  destruct (C58_global 1 fi h p V A' C' F Hh ltac:(done) Hs HV HA' HC' HF (fun _ => Hw)) as [(c1 & c2 & c3 & Hvec & F1 & F2 & F3 & _) _].
  pose proof (unit_closed fi h p Hh Hs Hw V HV A C A' C' F HA HC HA' HC') as HU.
  pose proof (HU (walks1 LA LC LA)) as U1. pose proof (HU (walks1 LA LC LF)) as U2. pose proof (HU (walks2 LA LC LA)) as U3. pose proof (HU (walks2 LA LC LF)) as U4. pose proof (HU (walks3 LA LC LA)) as U5. pose proof (HU (walks3 LA LC LF)) as U6.
  change (closed V V (walks1 A C A) = closed V V (walks1 A' C' A')) in U1. change (closed V V (walks1 A C F) = closed V V (walks1 A' C' F)) in U2.
  change (closed V V (walks2 A C A) = closed V V (walks2 A' C' A')) in U3. change (closed V V (walks2 A C F) = closed V V (walks2 A' C' F)) in U4.
  change (closed V V (walks3 A C A) = closed V V (walks3 A' C' A')) in U5. change (closed V V (walks3 A C F) = closed V V (walks3 A' C' F)) in U6.
  rewrite <- U1, <- U2 in F1. rewrite <- U3, <- U4 in F2. rewrite <- U5, <- U6 in F3.
  assert (forall c t d, fraction c t d -> (ratio0 t d == c)%Q) as HR.
  { intros c t d (_ & Hc & H0). unfold ratio0. destruct (decide (d = 0)) as [->|Hd]; [by rewrite H0|]. rewrite <- Hc. field. intros Ed. apply Hd. by apply (inject_Z_injective d 0). }
  rewrite Hvec. split; intros Hl.
  - rewrite decide_False by done. do 6 eexists. split; [done|]. split; [done|]. split; [by apply HR|]. split; by apply HR.
  - rewrite decide_True by done. do 4 eexists. split; [done|]. split; [done|]. by rewrite (HR _ _ _ F1), (HR _ _ _ F2).
Qed.
(** Names of different kinds, and a single node. *)
Theorem C80_errors w fi h p : mhist [CCat w] false 0 fi h p -> no_loops p ->
  (~ sortable p -> gcc_aw_vector_adj p = Err TypeError) /\
  (sortable p -> ~ two_nodes p -> (exists x l, mhas p 0 x /\ mhas p 1 l) -> gcc_aw_vector_adj p = Err ValueError).
Proof.
  intros Hh Hs. pose proof (mhist_inv _ _ _ _ _ _ Hh) as Hi. split.
  - intros Hso. unfold gcc_aw_vector_adj, adj_mats. by rewrite (supra_unsortable w fi h p true Hi Hso).
  - intros [N HN]%(sort_ok p) H2 (x & l & Hx & Hl). rewrite (two_two w fi h p Hi) in H2. assert ([x; l] ∈ N) as Hin by (apply (grid_N w fi h p N Hi HN); eauto).
    unfold gcc_aw_vector_adj. rewrite (adj_mats_eq w fi h p Hi Hs N HN). cbn [rbind]. rewrite (full_few w fi h p Hi H2). cbn [rbind].
    pose proof (N_nodup w fi h p Hi N HN) as Hnd. rewrite aw_sums by done. cbn [rbind].
    unfold aw_terms. cbn [rmapM mat_sum fst snd]. unfold mat_chain at 1. cbn [rfold]. unfold mat_mul at 1. rewrite tab_length, decide_False; [done|].
    destruct N; [by apply not_elem_of_nil in Hin|done].
Qed.

(** ** C81: the coefficients of Moreno et al. by matrices *)
Lemma two_dec (s : list name) : two s \/ ~ two s.
Proof.
  destruct s as [|x s]; [right; by intros (? & _ & ?%elem_of_nil & _)|]. destruct (decide (Forall (eq x) s)) as [HF|HF].
  - right. rewrite Forall_forall in HF. intros (a & b & Ha & Hb & Hne). apply Hne. rewrite elem_of_cons in Ha, Hb. destruct Ha as [-> |Ha%HF], Hb as [-> |Hb%HF]; congruence.
  - left. apply not_Forall_Exists, Exists_exists in HF as (y & Hy & Hne); [|apply _]. exists x, y. split; [by left|]. split; [by right|done].
Qed.
Section Moreno.
  Context (w : Z) (fi : bool) (h : list call) (p : mpx) (Hh : mhist [CCat w] false 0 fi h p) (Hs : no_loops p).
  Context (N : list nl) (HN : supra_nodes (mslices p) = Ok N).
  Context (V : list nl) (HV : lists_exactly V (mexists p)) (A C F : nl -> nl -> Z)
    (HA : weighs p (stepA p) A) (HC : weighs p (stepC p) C) (HF : indicates (stepF p) F).
  Local Notation wa := (Wa p). Local Notation wc := (Wc w p).
  Local Notation IN := (lval wa wc Wf). Local Notation IV := (lval A C F).
  Let Hi := mhist_inv _ _ _ _ _ _ Hh.
  Lemma trace_tab M : trace (tab N M) = zsumf (fun a => M a a) N.
  Proof. unfold trace. by rewrite tab_diag. Qed.
  Lemma trace_words Us : Forall goodw Us -> zsumf (fun a => zsumf (fun W => mprod N W a a) ((fun u : list letter => IN <$> u) <$> Us)) N = closed V V ((fun u : list letter => IV <$> u) <$> Us).
  Proof using All. intros HU. by apply (closed_VN w fi h p Hi Hs N HN V HV A C F HA HC HF). Qed.
  Lemma trace2 x : x = LA \/ x = LF -> zsumf (fun a => zsumf (fun W => mprod N W a a) (morenos wa wc (IN x))) N = closed V V (moreno2 A C (IV x)) /\
    zsumf (fun a => zsumf (fun W => mprod N W a a) (morenos3 wa wc (IN x))) N = closed V V (moreno3 A C (IV x)).
  Proof using All.
    intros Hx. split.
    - rewrite (zsumf_ext _ (fun a => counts N a (moreno2 wa wc (IN x)))).
      + apply (trace_words (moreno2 LA LC x)). destruct Hx as [-> | ->]; by repeat constructor.
      + intros a Ha. by apply (moreno_rev w fi h p Hi N HN x a Ha).
    - rewrite (zsumf_ext _ (fun a => counts N a (moreno3 wa wc (IN x)))).
      + apply (trace_words (moreno3 LA LC x)). destruct Hx as [-> | ->]; by repeat constructor.
      + intros a Ha. by apply (moreno_rev w fi h p Hi N HN x a Ha).
  Qed.
  Lemma open_words Us : Forall (fun u => goodw u /\ goodw (reverse u)) Us ->
    mat_off (tab N (fun a b => zsumf (fun W => mprod N W a b) ((fun u : list letter => IN <$> u) <$> Us))) = opened V ((fun u : list letter => IV <$> u) <$> Us).
  Proof using All.
    intros HU. pose proof (N_nodup w fi h p Hi N HN) as Hnd. rewrite tab_off by done. unfold opened.
    assert (forall a b, a ∈ N -> b ∈ N -> a ∉ V \/ b ∉ V -> zsumf (fun W => mprod N W a b) ((fun u : list letter => IN <$> u) <$> Us) = 0) as Hout.
    { intros a b Ha Hb Hno. apply zsumf_zero. intros W (u & -> & Hu)%elem_of_list_fmap. rewrite Forall_forall in HU. destruct (HU u Hu) as [[_ G1] [_ G2]]. destruct Hno as [Hno|Hno].
      - by destruct (first_out w fi h p Hi Hs N HN V HV A C F HA HC u a b G1 Ha Hno) as [-> _].
      - rewrite <- (reverse_involutive u), fmap_reverse. rewrite mprod_rev; [|done| |done..].
        + by destruct (first_out w fi h p Hi Hs N HN V HV A C F HA HC (reverse u) b a G2 Hb Hno) as [-> _].
        + rewrite Forall_fmap. apply Forall_true. intros x. apply (sym_IN w fi h p Hi N HN). }
    rewrite (sum_VN w fi h p Hi N HN V HV).
    - apply zsumf_ext. intros a Ha. pose proof (V_in_N w fi h p Hi N HN V HV a Ha) as HaN. rewrite (sum_VN w fi h p Hi N HN V HV).
      + apply zsumf_ext. intros b Hb. destruct (decide (a = b)); [done|]. clear Hout. induction HU as [|u Us [[G _] _] _ IH]; [done|]. cbn [fmap list_fmap]. rewrite !zsumf_cons. f_equal; [|exact IH].
        by apply (walk_eq w fi h p Hi Hs N HN V HV A C F HA HC HF).
      + intros b Hb Hno. destruct (decide (a = b)); [done|]. apply Hout; auto.
    - intros a Ha Hno. apply zsumf_zero. intros b Hb. destruct (decide (a = b)); [done|]. apply Hout; auto.
  Qed.
  Lemma moreno_value : gcc_vector_moreno p =
    let? c1 := np_div (length N) (closed V V (walks1 A C A)) (opened V (open1 A C)) in
    let? c2 := np_div (length N) (closed V V (moreno2 A C A)) (opened V (open2 A C)) in
    let? c3 := np_div (length N) (closed V V (moreno3 A C A)) (opened V (open3 A C)) in Ok (c1, c2, c3).
  Proof using All.
    unfold gcc_vector_moreno. rewrite (adj_mats_eq w fi h p Hi Hs N HN). cbn [rbind]. pose proof (N_nodup w fi h p Hi N HN) as Hnd.
    rewrite moreno_sums, open_sums by done. cbn [rbind fmap list_fmap]. rewrite !trace_tab, tab_length.
    pose proof (trace_words (walks1 LA LC LA) ltac:(by repeat constructor)) as E1. change ((fun u : list letter => IN <$> u) <$> walks1 LA LC LA) with (walks1 wa wc wa) in E1.
    change ((fun u : list letter => IV <$> u) <$> walks1 LA LC LA) with (walks1 A C A) in E1. destruct (trace2 LA ltac:(auto)) as [E2 E3]. cbn [lval] in E2, E3.
    pose proof (open_words (open1 LA LC) ltac:(by repeat constructor)) as O1. pose proof (open_words (open2 LA LC) ltac:(by repeat constructor)) as O2. pose proof (open_words (open3 LA LC) ltac:(by repeat constructor)) as O3.
    change ((fun u : list letter => IN <$> u) <$> open1 LA LC) with (open1 wa wc) in O1. change ((fun u : list letter => IN <$> u) <$> open2 LA LC) with (open2 wa wc) in O2. change ((fun u : list letter => IN <$> u) <$> open3 LA LC) with (open3 wa wc) in O3.
    change ((fun u : list letter => IV <$> u) <$> open1 LA LC) with (open1 A C) in O1. change ((fun u : list letter => IV <$> u) <$> open2 LA LC) with (open2 A C) in O2. change ((fun u : list letter => IV <$> u) <$> open3 LA LC) with (open3 A C) in O3.
    rewrite E1, E2, E3, O1, O2, O3. done.
  Qed.
  Lemma moreno2_value : two_nodes p \/ N = [] -> gcc_vector_moreno2 p =
    let? c1 := np_div (length N) (closed V V (walks1 A C A)) (closed V V (walks1 A C F)) in
    let? c2 := np_div (length N) (closed V V (moreno2 A C A)) (closed V V (moreno2 A C F)) in
    let? c3 := if decide (closed V V (moreno3 A C F) = 0) then Ok (PNum 0) else np_div (length N) (closed V V (moreno3 A C A)) (closed V V (moreno3 A C F)) in Ok (c1, c2, c3).
  Proof using All.
    intros H2. unfold gcc_vector_moreno2. rewrite (adj_mats_eq w fi h p Hi Hs N HN). cbn [rbind]. pose proof (N_nodup w fi h p Hi N HN) as Hnd.
    assert (full_matrix p = Ok (tab N Wf)) as ->.
    { destruct (two_dec (mnodes p)) as [H2'|H2']; [by apply (full_many w fi h p Hi)|]. destruct H2 as [H2|E]; [by apply (two_two w fi h p Hi) in H2|].
      rewrite (full_few w fi h p Hi H2'). by rewrite E. }
    cbn [rbind]. rewrite !moreno_sums by done. cbn [rbind fmap list_fmap]. rewrite !trace_tab, tab_length.
    pose proof (trace_words (walks1 LA LC LA) ltac:(by repeat constructor)) as E1. change ((fun u : list letter => IN <$> u) <$> walks1 LA LC LA) with (walks1 wa wc wa) in E1.
    change ((fun u : list letter => IV <$> u) <$> walks1 LA LC LA) with (walks1 A C A) in E1. destruct (trace2 LA ltac:(auto)) as [E2 E3]. cbn [lval] in E2, E3.
    pose proof (trace_words (walks1 LA LC LF) ltac:(by repeat constructor)) as E4. change ((fun u : list letter => IN <$> u) <$> walks1 LA LC LF) with (walks1 wa wc Wf) in E4.
    change ((fun u : list letter => IV <$> u) <$> walks1 LA LC LF) with (walks1 A C F) in E4. destruct (trace2 LF ltac:(auto)) as [E5 E6]. cbn [lval] in E5, E6.
    rewrite E1, E2, E3, E4, E5, E6. done.
  Qed.
End Moreno.
(** There is a node and a layer. *)
Definition nonempty (p : mpx) : Prop := exists x l, mhas p 0 x /\ mhas p 1 l.
Lemma nonempty_N w fi h p N : pinv [CCat w] false 0 fi h p -> supra_nodes (mslices p) = Ok N -> nonempty p <-> length N <> 0%nat.
Proof.
  intros Hi HN. pose proof (grid_N w fi h p N Hi HN) as [_ HG]. split.
  - intros (x & l & Hx & Hl). assert ([x; l] ∈ N) as Hin by (apply HG; eauto). destruct N; [by apply not_elem_of_nil in Hin|done].
  - intros Hl. destruct N as [|a N]; [done|]. destruct (proj1 (HG a) ltac:(by left)) as (x & l & _ & ?). by exists x, l.
Qed.
(** [gcc_vector_moreno(net)]: the closed walks divided by the open walks of two links. *)
Theorem C81_open_walks w fi h p V A C : mhist [CCat w] false 0 fi h p -> no_loops p -> sortable p -> nonempty p ->
  lists_exactly V (mexists p) -> weighs p (stepA p) A -> weighs p (stepC p) C ->
  exists c1 c2 c3, gcc_vector_moreno p = Ok (c1, c2, c3) /\ quotient c1 (closed V V (walks1 A C A)) (opened V (open1 A C)) /\
    quotient c2 (closed V V (moreno2 A C A)) (opened V (open2 A C)) /\ quotient c3 (closed V V (moreno3 A C A)) (opened V (open3 A C)).
Proof.
  intros Hh Hs [N HN]%(sort_ok p) Hne HV HA HC. pose proof (mhist_inv _ _ _ _ _ _ Hh) as Hi. apply (nonempty_N w fi h p N Hi HN) in Hne.
  destruct (matrices w fi h p Hh) as (_ & _ & _ & F & _ & _ & _ & HF). rewrite (moreno_value w fi h p Hh Hs N HN V HV A C F HA HC HF).
  destruct (np_quotient (length N) (closed V V (walks1 A C A)) (opened V (open1 A C)) Hne) as (c1 & -> & Q1). cbn [rbind].
  destruct (np_quotient (length N) (closed V V (moreno2 A C A)) (opened V (open2 A C)) Hne) as (c2 & -> & Q2). cbn [rbind].
  destruct (np_quotient (length N) (closed V V (moreno3 A C A)) (opened V (open3 A C)) Hne) as (c3 & -> & Q3). cbn [rbind]. eauto 8.
Qed.
(** [gcc_vector_moreno2(net)]: the closed walks divided by the walks closed by any node;
    the third coefficient is 0 if there are no such walks. *)
Theorem C81_closed_walks w fi h p V A C F : mhist [CCat w] false 0 fi h p -> no_loops p -> sortable p -> two_nodes p -> nonempty p ->
  lists_exactly V (mexists p) -> weighs p (stepA p) A -> weighs p (stepC p) C -> indicates (stepF p) F ->
  exists c1 c2 c3, gcc_vector_moreno2 p = Ok (c1, c2, c3) /\ quotient c1 (closed V V (walks1 A C A)) (closed V V (walks1 A C F)) /\
    quotient c2 (closed V V (moreno2 A C A)) (closed V V (moreno2 A C F)) /\
    (closed V V (moreno3 A C F) = 0 -> c3 = PNum 0) /\ (closed V V (moreno3 A C F) <> 0 -> quotient c3 (closed V V (moreno3 A C A)) (closed V V (moreno3 A C F))).
Proof.
  intros Hh Hs [N HN]%(sort_ok p) H2 Hne HV HA HC HF. pose proof (mhist_inv _ _ _ _ _ _ Hh) as Hi. apply (nonempty_N w fi h p N Hi HN) in Hne.
  rewrite (moreno2_value w fi h p Hh Hs N HN V HV A C F HA HC HF) by auto.
  destruct (np_quotient (length N) (closed V V (walks1 A C A)) (closed V V (walks1 A C F)) Hne) as (c1 & -> & Q1). cbn [rbind].
  destruct (np_quotient (length N) (closed V V (moreno2 A C A)) (closed V V (moreno2 A C F)) Hne) as (c2 & -> & Q2). cbn [rbind].
  destruct (np_quotient (length N) (closed V V (moreno3 A C A)) (closed V V (moreno3 A C F)) Hne) as (c3 & -> & Q3).
  destruct (decide _) as [E|E]; cbn [rbind]; do 3 eexists; (split; [done|]); (split; [done|]); (split; [done|]); done.
Qed.
(** [gcc_moreno(net,w1,w2,w3)] and [gcc_moreno2(net,w1,w2,w3)] are the weighted sums (with
    two layers, of the first two); a coefficient that is nan makes the result nan even if
    its weight is 0. *)
Theorem C81_weighted w fi h p w1 w2 w3 q1 q2 q3 : mhist [CCat w] false 0 fi h p ->
  (gcc_vector_moreno p = Ok (PNum q1, PNum q2, PNum q3) -> gcc_moreno p w1 w2 w3 = Ok (PNum (w1 * q1 + w2 * q2 + w3 * q3))) /\
  (gcc_vector_moreno2 p = Ok (PNum q1, PNum q2, PNum q3) -> ~ two_layers p -> gcc_moreno2 p w1 w2 w3 = Ok (PNum (w1 * q1 + w2 * q2 + w3 * q3))) /\
  (gcc_vector_moreno2 p = Ok (PNum q1, PNum q2, PNum q3) -> two_layers p -> gcc_moreno2 p w1 w2 w3 = Ok (PNum (w1 * q1 + w2 * q2))).
Proof.
  intros Hh. rewrite (two_layers_len w fi h p Hh). pose proof (mhist_inv _ _ _ _ _ _ Hh) as Hi. unfold gcc_moreno, gcc_moreno2, pslices. rewrite (slices_eq w fi h p Hi). cbn [lookup list_lookup rbind].
  split; [by intros ->|]. split; intros -> Hl; cbn [rbind].
  - by rewrite decide_False.
  - by rewrite decide_True.
Qed.
Theorem C81_nan w fi h p w1 w2 w3 c1 c2 c3 : mhist [CCat w] false 0 fi h p ->
  (gcc_vector_moreno p = Ok (c1, c2, c3) -> c1 = PNan \/ c2 = PNan \/ c3 = PNan -> gcc_moreno p w1 w2 w3 = Ok PNan) /\
  (gcc_vector_moreno2 p = Ok (c1, c2, c3) -> c1 = PNan \/ c2 = PNan -> gcc_moreno2 p w1 w2 w3 = Ok PNan).
Proof.
  intros Hh. pose proof (mhist_inv _ _ _ _ _ _ Hh) as Hi. unfold gcc_moreno, gcc_moreno2, pslices. rewrite (slices_eq w fi h p Hi). cbn [lookup list_lookup rbind].
  assert (forall x, padd x PNan = PNan) as Hr by (by intros []).
  split; intros ->; cbn [rbind fst snd].
  - intros [-> |[-> | ->]]; cbn [pmul]; rewrite ?Hr; done.
  - intros [-> | ->]; cbn [pmul]; rewrite ?Hr; by destruct (decide _).
Qed.
(** With unit weights [gcc_moreno2] and [gcc_moreno2_seplayers] return the same number if
    there are walks of the first two kinds; otherwise [gcc_moreno2] returns nan and
    [gcc_moreno2_seplayers] a number. *)
Theorem C81_same_coefficient fi h p V A C F w1 w2 w3 : mhist [CCat 1] false 0 fi h p -> no_loops p -> sortable p -> two_nodes p -> nonempty p ->
  weights p (fun v => v = 0 \/ v = 1) ->
  lists_exactly V (mexists p) -> indicates (stepA p) A -> indicates (stepC p) C -> indicates (stepF p) F ->
  exists q', gcc_moreno2_seplayers p w1 w2 (Some w3) = Ok q' /\
    (closed V V (walks1 A C F) <> 0 -> closed V V (moreno2 A C F) <> 0 -> exists q, gcc_moreno2 p w1 w2 w3 = Ok (PNum q) /\ (q == q')%Q) /\
    (closed V V (walks1 A C F) = 0 \/ closed V V (moreno2 A C F) = 0 -> gcc_moreno2 p w1 w2 w3 = Ok PNan).
Proof.
  intros Hh Hs Hso H2 Hne Hw HV HA HC HF. destruct (matrices 1 fi h p Hh) as (_ & A' & C' & _ & _ & HA' & HC' & _).
  destruct (C58_moreno2 1 fi h p V A C F Hh ltac:(done) Hs HV HA HC HF) as (vec & (d1 & d2 & d3 & _ & F1 & F2 & F3 & Hv) & _).
  destruct (Hv w1 w2 w3) as (q' & Hq' & Eq). exists q'. split; [done|].
  destruct (C81_closed_walks 1 fi h p V A' C' F Hh Hs Hso H2 Hne HV HA' HC' HF) as (c1 & c2 & c3 & E & Q1 & Q2 & Z3 & Q3).
  pose proof (unit_closed fi h p Hh Hs Hw V HV A' C' A C F HA' HC' HA HC) as HU.
  pose proof (HU (walks1 LA LC LA)) as U1. pose proof (HU (walks1 LA LC LF)) as U2. pose proof (HU (moreno2 LA LC LA)) as U3. pose proof (HU (moreno2 LA LC LF)) as U4. pose proof (HU (moreno3 LA LC LA)) as U5. pose proof (HU (moreno3 LA LC LF)) as U6.
  change (closed V V (walks1 A' C' A') = closed V V (walks1 A C A)) in U1. change (closed V V (walks1 A' C' F) = closed V V (walks1 A C F)) in U2.
  change (closed V V (moreno2 A' C' A') = closed V V (moreno2 A C A)) in U3. change (closed V V (moreno2 A' C' F) = closed V V (moreno2 A C F)) in U4.
  change (closed V V (moreno3 A' C' A') = closed V V (moreno3 A C A)) in U5. change (closed V V (moreno3 A' C' F) = closed V V (moreno3 A C F)) in U6.
  rewrite U1, U2 in Q1. rewrite U3, U4 in Q2. rewrite U5, U6 in Q3. rewrite U6 in Z3. split.
  - intros N1 N2. destruct Q1 as [Q1 _], Q2 as [Q2 _]. destruct (Q1 N1) as (q1 & -> & K1). destruct (Q2 N2) as (q2 & -> & K2).
    assert (forall q d t k, (q * inject_Z k == inject_Z t)%Q -> fraction d t k -> k <> 0 -> (q == d)%Q) as HE.
    { intros q d t k K (_ & K' & _) Hk. apply (Qmult_inj_r _ _ (inject_Z k)); [intros Ek; apply Hk; by apply (inject_Z_injective k 0)|]. by rewrite K, K'. }
    assert (exists q3, c3 = PNum q3 /\ (q3 == d3)%Q) as (q3 & -> & K3).
    { destruct (decide (closed V V (moreno3 A C F) = 0)) as [Z|Z].
      - exists 0%Q. split; [by apply Z3|]. destruct F3 as (_ & _ & F3). by rewrite F3.
      - destruct (Q3 Z) as [Q3' _]. destruct (Q3' Z) as (q3 & -> & K3). exists q3. split; [done|]. by eapply HE. }
    destruct (C81_weighted 1 fi h p w1 w2 w3 q1 q2 q3 Hh) as (_ & W1 & W2). specialize (HE) as HE'.
    assert (q1 == d1)%Q as E1 by (by eapply HE). assert (q2 == d2)%Q as E2 by (by eapply HE).
    pose proof (two_layers_len 1 fi h p Hh) as HT. destruct (decide (length (lays p) = 2%nat)) as [Hl|Hl].
    + eexists. split; [apply W2; [done|by apply HT]|]. rewrite Eq, E1, E2. apply (sort_ok p) in Hso as [N HN].
      assert (closed V V (moreno3 A C F) = 0) as Z. { rewrite <- U6. pose proof (three_zero 1 fi h p Hh Hs N HN H2 V HV A' C' F HA' HC' HF F Hl ltac:(auto)) as T. unfold closed, walks3, moreno3 in *. rewrite !zsumf_cons, !zsumf_nil in *. lia. }
      destruct F3 as (_ & _ & F3). rewrite (F3 Z). ring.
    + eexists. split; [apply W1; [done|by rewrite HT]|]. by rewrite Eq, E1, E2, K3.
  - intros Hz. destruct (C81_nan 1 fi h p w1 w2 w3 c1 c2 c3 Hh) as [_ HNan]. apply HNan; [done|]. destruct Hz as [Hz|Hz]; [left|right].
    + destruct Q1 as (_ & Q1 & _). apply Q1; [done|]. destruct F1 as (? & _). lia.
    + destruct Q2 as (_ & Q2 & _). apply Q2; [done|]. destruct F2 as (? & _). lia.
Qed.
(** Errors: an empty network, names of different kinds, a single node. *)
Theorem C81_errors w fi h p : mhist [CCat w] false 0 fi h p -> no_loops p ->
  (~ sortable p -> gcc_vector_moreno p = Err TypeError /\ gcc_vector_moreno2 p = Err TypeError) /\
  (sortable p -> ~ nonempty p -> gcc_vector_moreno p = Err ZeroDivisionError /\ gcc_vector_moreno2 p = Err ZeroDivisionError) /\
  (sortable p -> nonempty p -> ~ two_nodes p -> gcc_vector_moreno2 p = Err ValueError).
Proof.
  intros Hh Hs. pose proof (mhist_inv _ _ _ _ _ _ Hh) as Hi. split; [|split].
  - intros Hso. unfold gcc_vector_moreno, gcc_vector_moreno2, adj_mats. by rewrite (supra_unsortable w fi h p true Hi Hso).
  - intros [N HN]%(sort_ok p) Hne. rewrite (nonempty_N w fi h p N Hi HN) in Hne. assert (N = []) as E0 by (destruct N; [done|simpl in Hne; lia]).
    destruct (matrices w fi h p Hh) as (V & A & C & F & HV & HA & HC & HF).
    rewrite (moreno_value w fi h p Hh Hs N HN V HV A C F HA HC HF), (moreno2_value w fi h p Hh Hs N HN V HV A C F HA HC HF) by auto.
    assert (V = []) as ->. { destruct V as [|a V]; [done|]. pose proof (V_in_N w fi h p Hi N HN _ HV a ltac:(by left)) as Ha. rewrite E0 in Ha. by apply not_elem_of_nil in Ha. }
    subst N. split; reflexivity.
  - intros [N HN]%(sort_ok p) Hne H2. apply (nonempty_N w fi h p N Hi HN) in Hne. rewrite (two_two w fi h p Hi) in H2.
    unfold gcc_vector_moreno2. rewrite (adj_mats_eq w fi h p Hi Hs N HN). cbn [rbind]. rewrite (full_few w fi h p Hi H2). cbn [rbind].
    pose proof (N_nodup w fi h p Hi N HN) as Hnd. rewrite moreno_sums by done. cbn [rbind].
    unfold moreno_terms. cbn [rmapM mat_sum fst snd]. unfold mat_chain at 1. cbn [rfold]. unfold mat_mul at 1. rewrite tab_length, decide_False; [done|]. destruct N; done.
Qed.
Print Assumptions C79_matrix_version.
Print Assumptions C79_matrices_exist.
Print Assumptions C79_same_as_brute_force.
Print Assumptions C79_coupling_weight_refuted.
Print Assumptions C79_errors.
Print Assumptions C80_vectors.
Print Assumptions C80_loop_version.
Print Assumptions C80_same_coefficient.
Print Assumptions C80_vector_flag.
Print Assumptions C80_errors.
Print Assumptions C81_open_walks.
Print Assumptions C81_closed_walks.
Print Assumptions C81_weighted.
Print Assumptions C81_nan.
Print Assumptions C81_same_coefficient.
Print Assumptions C81_errors.
(** The network [exu] of C42_example, with three layers. *)
Lemma has_by p k x s : mget_layers p k = Ok s -> bool_decide (x ∈ s) = true -> mhas p k x.
Proof. intros H1 H2. exists s. split; [done|]. by apply bool_decide_eq_true in H2. Qed.
Example C79_example : mhist [CCat 1] false 0 false exu.1 exu.2 /\ no_loops exu.2 /\ sortable exu.2 /\ two_nodes exu.2 /\ weights exu.2 (fun v => v = 0 \/ v = 1) /\
  mhas exu.2 0 n1 /\ mhas exu.2 1 sa /\ cc_cycle_vector_adj exu.2 n1 sa = Ok [0; 0; 1; 2; 1; 2; 2; 2; 4; 2].
Proof.
  assert (mhist [CCat 1] false 0 false exu.1 exu.2) as Hh by apply mcalls_hist. split; [done|]. split; [by eapply no_loops_by; [done|vm_compute]|].
  split; [apply (sort_ok exu.2); eexists; vm_compute; reflexivity|].
  split; [exists n1, n2; split; [eapply has_by; [vm_compute; reflexivity|by vm_compute]|]; split; [eapply has_by; [vm_compute; reflexivity|by vm_compute]|done]|].
  split; [eapply weights_by; [exact Hh|by left|by vm_compute]|]. split; [eapply has_by; [vm_compute; reflexivity|by vm_compute]|].
  split; [eapply has_by; [vm_compute; reflexivity|by vm_compute]|]. vm_compute. reflexivity.
Qed.
(** A fully interconnected network with two layers; with coupling weight 2 the matrix
    version of the counts raises AssertionError. *)
Definition exadj (w : Z) := mcalls (new_mpx [CCat w] false 0 true) [MSet [n1; n2; sa] 1; MSet [n1; n3; sa] 1; MSet [n2; n3; sb] 1; MSet [n1; n2; sb] 1].
Example C79_assertion_example : mhist [CCat 2] false 0 true (exadj 2).1 (exadj 2).2 /\ no_loops (exadj 2).2 /\ sortable (exadj 2).2 /\ two_nodes (exadj 2).2 /\
  cc_cycle_vector_adj (exadj 2).2 n1 sa = Err AssertionError /\ cc_cycle_vector_bf (exadj 2).2 n1 sa = Ok [0; 0; 1; 2; 0; 2; 1; 1; 2; 0].
Proof.
  assert (mhist [CCat 2] false 0 true (exadj 2).1 (exadj 2).2) as Hh by apply mcalls_hist. split; [done|]. split; [by eapply no_loops_by; [done|vm_compute]|].
  split; [apply (sort_ok (exadj 2).2); eexists; vm_compute; reflexivity|].
  split; [exists n1, n2; split; [eapply has_by; [vm_compute; reflexivity|by vm_compute]|]; split; [eapply has_by; [vm_compute; reflexivity|by vm_compute]|done]|].
  split; vm_compute; reflexivity.
Qed.
Example C80_example : exists q, gcc_aw_seplayers_adj exu.2 1 1 1 = Ok q /\ (q == (18 # 32) + (6 # 12))%Q /\
  exists q', gcc_aw_seplayers_adj_vector (exadj 1).2 (1 # 2) (1 # 2) = Ok (inl q') /\ (q' == 3 # 8)%Q /\ gcc_aw_vector (exadj 1).2 = Ok (0 # 4, 12 # 16, 0)%Q.
Proof. eexists. split; [vm_compute; reflexivity|]. split; [by vm_compute|]. eexists. split; [vm_compute; reflexivity|]. split; [by vm_compute|]. vm_compute. reflexivity. Qed.
(** One layer: no walks of the second kind. *)
Definition exone := mcalls (new_mpx [CCat 1] false 0 true) [MSet [n1; n2; sa] 1; MSet [n1; n3; sa] 1; MSet [n2; n3; sa] 1].
Example C81_example : gcc_vector_moreno exu.2 = Ok (PNum (0 # 4), PNum (30 # 148), PNum (12 # 104)) /\
  gcc_vector_moreno2 exu.2 = Ok (PNum (0 # 4), PNum (30 # 56), PNum (12 # 24)) /\
  gcc_vector_moreno2 exone.2 = Ok (PNum (6 # 6), PNan, PNum 0) /\ gcc_moreno2 exone.2 1 0 0 = Ok PNan /\ (exists q, gcc_moreno2_seplayers exone.2 1 0 (Some 0%Q) = Ok q /\ (q == 1)%Q).
Proof.
  split; [vm_compute; reflexivity|]. split; [vm_compute; reflexivity|]. split; [|split; [vm_compute; reflexivity|]]; [|eexists; split; [vm_compute; reflexivity|by vm_compute]].
  vm_compute. reflexivity.
Qed.
