(** * Properties C70, C71: thresholding and randomizing multiplex networks *)
From Verif Require Import MpxThr PropsNet PropsMpx PropsTrans PropsMpxEq PropsMpxRelabel.

Lemma none_no_net (cs : list coupling) : (forall c, c ∈ cs -> exists o, c = CNone o) -> (forall m, CNet m ∉ cs).
Proof. intros H m Hm. by destruct (H _ Hm). Qed.

(** ** C70 *)
Theorem C70_threshold cs dir noe h p t r : mhist cs dir noe true h p -> 1 <= length cs -> (forall c, c ∈ cs -> exists o, c = CNone o) -> r <> ROther ->
  exists q g, mthreshold p t r = Ok q /\ mhist cs dir noe true g q /\
    (forall k x, mhas q k x <-> mhas p k x) /\ (forall a, mexists q a <-> mexists p a) /\
    (forall l x y w, agetitem p l [x; y] = Ok w -> compares r w t -> agetitem q l [x; y] = Ok w) /\
    (forall l x y w, agetitem p l [x; y] = Ok w -> ~ compares r w t -> agetitem q l [x; y] = Ok 0%Z).
Proof.
  intros Hh H1 Hn Hr. pose proof (mhist_inv _ _ _ _ _ _ Hh) as Hp. pose proof (no_nets _ (none_no_net _ Hn)) as Hnn.
  destruct (thr_facts cs dir noe true h p r t Hp H1 Hnn Hr eq_refl) as (q & g & E & Hq & Hs & HA & Hl). pose proof (mhist_inv _ _ _ _ _ _ Hq) as Iq.
  exists q, g. split; [done|]. split; [done|]. split; [intros; by rewrite <- !psl_mhas|]. split.
  { intros a. rewrite !mexists_iff by (by eapply pi_wf). rewrite (pi_fic _ _ _ _ _ _ Hp), (pi_fic _ _ _ _ _ _ Iq), (pinv_masp _ _ _ _ _ _ Hp), (pinv_masp _ _ _ _ _ _ Iq). by setoid_rewrite Hs. }
  split; intros l x y w Hw Hc; rewrite agetitem_lrd in *; (destruct (pA p l) as [m|] eqn:Em; [|done]); injection Hw as <-;
    (destruct (HA l) as [n ->]; [by eexists|]); rewrite Hl; f_equal.
  - by rewrite (proj2 (acc_of_true r t _) Hc).
  - destruct (acc_of r t (lrd p l x y)) eqn:Ea; [|done]. by apply acc_of_true in Ea.
Qed.
(** Networks that are not fully interconnected: the call raises if there is a node-layer. *)
Theorem C70_not_fully_interconnected cs dir noe h p t r a : mhist cs dir noe false h p -> 1 <= length cs -> (forall c, c ∈ cs -> exists o, c = CNone o) ->
  mexists p a -> mthreshold p t r = Err NameError.
Proof. intros Hp%mhist_inv H1 Hn Ha. by apply (thr_name_error cs dir noe h p r t a Hp H1 (no_nets _ (none_no_net _ Hn))). Qed.
(** An unknown method is only reported if there is a link. *)
Theorem C70_unknown_method cs dir noe h p t : mhist cs dir noe true h p -> 1 <= length cs -> (forall c, c ∈ cs -> exists o, c = CNone o) ->
  ((exists l x y w, agetitem p l [x; y] = Ok w /\ w <> 0%Z) -> mthreshold p t ROther = Err GenericException) /\
  ((forall l x y w, agetitem p l [x; y] = Ok w -> w = 0%Z) -> exists q, mthreshold p t ROther = Ok q /\ meq q p = Ok true).
Proof.
  intros Hh H1 Hn. pose proof (mhist_inv _ _ _ _ _ _ Hh) as Hp. pose proof (none_no_net _ Hn) as Hn'.
  destruct (thr_other cs dir noe h p t Hp H1 (no_nets _ Hn')) as [O1 O2]. split.
  - intros (l & x & y & w & Hw & Hne). apply O1. exists l, x, y. rewrite agetitem_lrd in Hw. destruct (pA p l); [|done]. by injection Hw as ->.
  - intros Hz. assert (forall l x y, lrd p l x y = 0%Z) as Hz'.
    { intros l x y. destruct (pA p l) as [m|] eqn:Em; [|unfold lrd; by rewrite Em]. apply (Hz l x y). rewrite agetitem_lrd. by rewrite Em. }
    destruct (thr_facts cs dir noe true h p RGe t Hp H1 (no_nets _ Hn') ltac:(done) eq_refl) as (q & g & E & Hq & Hs & HA & Hl).
    exists q. split; [by rewrite (O2 Hz')|]. pose proof (mhist_inv _ _ _ _ _ _ Hq) as Iq.
    apply (C67_equality _ _ _ _ _ _ _ _ _ _ _ _ Hq Hh); [by apply no_nets_ok..|]. eapply same_of; [exact Hp|exact Iq|done|done| |].
    + intros a. rewrite !mexists_iff by (by eapply pi_wf). rewrite (pi_fic _ _ _ _ _ _ Hp), (pi_fic _ _ _ _ _ _ Iq), (pinv_masp _ _ _ _ _ _ Hp), (pinv_masp _ _ _ _ _ _ Iq). by setoid_rewrite Hs.
    + intros ls x y _ _ _ _. rewrite Hl, !Hz'. by destruct (acc_of _ _ _).
Qed.
Definition ex70 := mcalls (new_mpx [CNone None; CNone None] false 0 true)
  [MSet [n1; n2; sa; n1] 4; MSet [n2; n3; sa; n1] 6; MASet (LTup [sa; n1]) [n3; n3] 9; MAddLayer sb 1].
Definition ex70n := mcalls (new_mpx [CNone None] false 0 false) [MSet [n1; n2; sa] 4].
Example C70_example : mhist [CNone None; CNone None] false 0 true ex70.1 ex70.2 /\
  (exists q, mthreshold ex70.2 5 RGe = Ok q /\ agetitem q (LTup [sa; n1]) [n1; n2] = Ok 0%Z /\ agetitem q (LTup [sa; n1]) [n3; n2] = Ok 6%Z /\
     agetitem q (LTup [sa; n1]) [n3; n3] = Ok 9%Z /\ mnodes q = [n1; n2; n3]) /\
  mthreshold ex70.2 5 ROther = Err GenericException /\ mhist [CNone None] false 0 false ex70n.1 ex70n.2 /\ mexists ex70n.2 [n1; sa] /\
  mthreshold ex70n.2 5 RGe = Err NameError.
Proof.
  split; [apply mcalls_hist|]. split; [eexists; split_and!; by vm_compute|]. split; [by vm_compute|]. split; [apply mcalls_hist|]. split; [|by vm_compute].
  eexists. split; [by vm_compute|]. by apply (bool_decide_unpack _).
Qed.
Print Assumptions C70_threshold.
Print Assumptions C70_not_fully_interconnected.
Print Assumptions C70_unknown_method.

(** ** C71 *)
(** [net.A[l]] iterates over the nodes [s]. *)
Definition layer_nodes (p : mpx) (l : layer) (s : list name) : Prop := exists m, pA p l = Some m /\ net_nodes m = s.
(** [f] is a permutation of the nodes on layer [l]. *)
Definition permutes (p : mpx) (l : layer) (f : name -> name) : Prop :=
  (forall x, mexists p (nl_of x l) -> mexists p (nl_of (f x) l)) /\
  (forall x y, mexists p (nl_of x l) -> mexists p (nl_of y l) -> f x = f y -> x = y) /\
  (forall y, mexists p (nl_of y l) -> exists x, mexists p (nl_of x l) /\ f x = y).
(** [sh l] is the shuffled list of the nodes of layer [l]. *)
Theorem C71_randomize c dir noe fi h p sh : mhist [c] dir noe fi h p -> (forall m, c <> CNet m) ->
  (forall l s, layer_nodes p l s -> Permutation (sh l) s) ->
  exists q g, mrandomize p sh = Ok q /\ mhist [c] dir noe fi g q /\
    (forall a, mexists q a <-> mexists p a) /\ (forall x, mhas q 1 x <-> mhas p 1 x) /\
    (forall x, mhas q 0 x <-> exists a, mexists p a /\ a !! 0 = Some x) /\
    (forall l, l ∈ mlayers p -> exists f, permutes p l f /\
       (forall s i x, layer_nodes p l s -> s !! i = Some x -> sh l !! i = Some (f x)) /\
       forall x y, mexists p (nl_of x l) -> mexists p (nl_of y l) -> agetitem q l [f x; f y] = agetitem p l [x; y]).
Proof.
  intros Hh Hc Hs. pose proof (mhist_inv _ _ _ _ _ _ Hh) as Hp. pose proof (pi_wf _ _ _ _ _ _ Hp) as Hw. assert (no_net c) as Hnn by (destruct c; try done; by eapply Hc).
  assert (Hsh : forall l m, pA p l = Some m -> Permutation (sh l) (net_nodes m)) by (intros l m Hm; apply Hs; by exists m).
  destruct (rand_facts c dir noe fi h p sh Hp Hnn Hsh) as (q & g & E & Hq & S1 & S0 & He & HA & Hl).
  exists q, g. split; [done|]. split; [done|]. split; [done|]. split; [intros; by rewrite <- !psl_mhas|]. split; [intros; by rewrite <- psl_mhas|].
  intros l Hlay. apply mlayers_form in Hlay as [m Hm]; [|done]. pose proof (fun x => on_layer c dir noe fi h p Hp x l m Hm) as Hon. exists (rmap sh p l). split; [|split].
  - unfold permutes. setoid_rewrite Hon. split; [|split].
    + intros x Hx. by apply (rmap_in c dir noe fi h p sh Hp Hsh l m).
    + intros x y. by apply (rmap_inj c dir noe fi h p sh Hp Hsh l m).
    + intros y. by apply (rmap_surj c dir noe fi h p sh Hp Hsh l m).
  - intros s i x (m' & Hm' & <-) Hx. assert (m' = m) as -> by congruence. by apply (rmap_pos c dir noe fi h p sh Hp Hsh l m).
  - intros x y Hx%Hon Hy%Hon. rewrite !agetitem_lrd, Hm. destruct (HA l) as [n ->]; [by eexists|]. f_equal. by apply (Hl l m).
Qed.
Theorem C71_wrong_network cs dir noe fi h p sh : mhist cs dir noe fi h p -> length cs <> 1 \/ (exists m, CNet m ∈ cs) -> mrandomize p sh = Err AssertionError.
Proof.
  intros Hp%mhist_inv Hm. unfold mrandomize. rewrite (pinv_masp _ _ _ _ _ _ Hp). destruct (decide (length cs = 1)) as [E|]; [|done]. destruct Hm as [|[m Hm]]; [done|].
  unfold msubnet. rewrite (pinv_masp _ _ _ _ _ _ Hp), E. rewrite decide_True by done. cbv zeta. unfold like. rewrite (pi_coup _ _ _ _ _ _ Hp).
  assert (existsb is_cnet cs = true) as ->; [|done]. apply existsb_exists. exists (CNet m). split; [by apply elem_of_list_In|done].
Qed.
Definition ex71 := mcalls (new_mpx [COrd 2] false 0 false)
  [MSet [n1; n2; n1] 4; MSet [n2; n3; n1] 6; MSet [n1; n3; n2] 9; MAddNode sc None].
Definition ex71_sh (l : layer) : list name := match l with LBare (NInt 1) => [n2; n3; n1] | _ => [n1; n3] end.
Example C71_example : mhist [COrd 2] false 0 false ex71.1 ex71.2 /\ (forall l s, layer_nodes ex71.2 l s -> Permutation (ex71_sh l) s) /\
  exists q, mrandomize ex71.2 ex71_sh = Ok q /\ agetitem q (LBare n1) [n2; n3] = Ok 4%Z /\ agetitem q (LBare n1) [n3; n1] = Ok 6%Z /\
    agetitem q (LBare n1) [n1; n2] = Ok 0%Z /\ agetitem q (LBare n2) [n3; n1] = Ok 9%Z /\ mnodes q = [n1; n2; n3] /\ mnodes ex71.2 = [n1; n2; n3; sc].
Proof.
  split; [apply mcalls_hist|]. split; [|eexists; split_and!; by vm_compute].
  intros l s (m & Hm & <-). assert (l ∈ mlayers ex71.2) as Hl.
  { apply mlayers_form; [eapply pi_wf, mhist_inv, mcalls_hist|by exists m]. }
  assert (mlayers ex71.2 = [LBare n1; LBare n2]) as E by (by vm_compute). rewrite E in Hl.
  apply elem_of_cons in Hl as [->|Hl%elem_of_list_singleton]; [|subst l]; vm_compute in Hm; injection Hm as <-; by apply (bool_decide_unpack _).
Qed.
Print Assumptions C71_randomize.
Print Assumptions C71_wrong_network.
