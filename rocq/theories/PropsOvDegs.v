(** * Property C82: overlap degrees *)
From Verif Require Import OvDegs OvDegsFacts CcFacts CcSpec CcAgg CcAdjFacts PropsCc SampFacts MpxHist MpxIter PropsMpx PropsMpxSub.
Open Scope Z_scope.

(** The nodes [x] and [y] are linked in the layers [c] and in no other layer. *)
Definition linked_exactly_in (p : mpx) (c : list name) (x y : name) : Prop :=
  forall l, mhas p 1 l -> mlinked p [x; l] [y; l] <-> l ∈ c.
(** The node [x] is on some layer of [c]. *)
Definition on_some_layer (p : mpx) (c : list name) (x : name) : Prop := exists l, l ∈ c /\ mexists p [x; l].
(** [ol_degs[c][x]], 0 if [x] is not listed. *)
Definition overlap_degree (d : dict (list name) (dict nl Z)) (c : list name) (x : name) : Z :=
  default 0 (dget (default [] (dget d c)) [x]).

Lemma exs_iff w fi h p c x y : mhist [CCat w] false 0 fi h p -> no_loops p -> weights p (fun v => v = 0 \/ v = 1) -> sublist c (lays p) ->
  exs p x y = c <-> linked_exactly_in p c x y.
Proof.
  intros Hh Hs Hu Hc. pose proof (mhist_inv _ _ _ _ _ _ Hh) as Hi.
  assert (Hel : forall l, l ∈ exs p x y <-> mhas p 1 l /\ mlinked p [x; l] [y; l]).
  { intros l. unfold exs. rewrite elem_of_list_filter, (lays_psl w fi h p Hi), psl_mhas, (linked_intra w fi h p Hh Hs), bl_1. tauto. }
  unfold linked_exactly_in. split.
  - intros <- l Hl. rewrite Hel. tauto.
  - intros H. apply (sublist_ext (lays p)); [apply (NoDup_lays w fi h p Hi)|apply exs_sub|done|]. intros l. rewrite Hel. split.
    + intros [Hl Hk]. by apply H.
    + intros Hl. assert (mhas p 1 l) as Hm by (apply psl_mhas, (lays_psl w fi h p Hi); by eapply sublist_elem). split; [done|]. by apply H.
Qed.
Lemma on_comb_iff w fi h p c x : mhist [CCat w] false 0 fi h p -> sublist c (lays p) -> c <> [] -> on_comb fi p c x <-> on_some_layer p c x.
Proof.
  intros Hh Hc Hne. pose proof (mhist_inv _ _ _ _ _ _ Hh) as Hi. unfold on_comb, on_some_layer. destruct fi; [|done]. split.
  - intros Hx. destruct c as [|l c]; [done|]. exists l. split; [left|]. apply mexists_iff; [apply Hi|]. rewrite (pi_fic _ _ _ _ _ _ Hi), (pinv_asp _ _ _ _ _ _ Hi).
    split; [done|]. intros [|[|k]] z Hz; simpl in Hz; [| |done]; injection Hz as <-; [by apply mnodes_psl|]. apply (lays_psl w true h p Hi). eapply sublist_elem; [done|left].
  - intros (l & _ & Hx). apply (el_1 w true h p Hi) in Hx. by apply (el_in w true h p Hi) in Hx as [? _].
Qed.

(** ** C82 *)
(** Without self-loops and with all weights 1: there is one entry for every nonempty
    combination of layers.  It lists the nodes on these layers, each with the number of
    nodes it is linked to in exactly these layers. *)
Theorem C82_overlap_degrees w fi h p LS : mhist [CCat w] false 0 fi h p -> w <> 0 -> no_loops p -> weights p (fun v => v = 0 \/ v = 1) ->
  mget_layers p 1 = Ok LS ->
  exists d, overlap_degs true p = Ok d /\
    (forall c, c ∈ dkeys d <-> sublist c LS /\ c <> []) /\
    forall c e, dget d c = Some e ->
      (forall a, a ∈ dkeys e <-> exists x, a = [x] /\ on_some_layer p c x) /\
      forall x v, dget e [x] = Some v <-> on_some_layer p c x /\ exists L, lists_exactly L (linked_exactly_in p c x) /\ v = Z.of_nat (length L).
Proof.
  intros Hh Hw Hs Hu HL. pose proof (mhist_inv _ _ _ _ _ _ Hh) as Hi.
  assert (LS = lays p) as ->. { unfold mget_layers in HL. rewrite (lays_eq w fi h p Hi) in HL. by injection HL. }
  destruct (ol_main w fi h p Hh Hw) as (d & E & Hd).
  { intros l x. by apply wt_self. } { intros l x y. apply (weights_wt p (fun v => v = 0 \/ v = 1)); [done|by left]. }
  exists d. split; [done|]. split.
  { intros c. rewrite elem_of_dkeys. specialize (Hd c). destruct (dget d c) as [e|]; [|split; [by intros [? ?]|done]]. split; [tauto|eauto]. }
  intros c e He. specialize (Hd c). rewrite He in Hd. destruct Hd as (Hc & Hne & Hk & Hv).
  assert (Hk' : forall a, a ∈ dkeys e <-> exists x, a = [x] /\ on_some_layer p c x).
  { intros a. rewrite Hk. split; intros (x & -> & Hx); exists x; (split; [done|]); by apply (on_comb_iff w fi h p c x Hh Hc Hne). }
  assert (Hv' : forall x v, dget e [x] = Some v -> exists L, lists_exactly L (linked_exactly_in p c x) /\ v = Z.of_nat (length L)).
  { intros x v Ev. destruct (Hv x v Ev) as (L & [HN HE] & ->). exists L. split; [|done]. split; [done|]. intros y. rewrite HE. by apply (exs_iff w fi h p). }
  split; [done|]. intros x v. split.
  - intros Ev. split; [|by apply Hv']. assert ([x] ∈ dkeys e) as (x' & [= <-] & Hx)%Hk' by (apply elem_of_dkeys; eauto). done.
  - intros [Hx (L & HLe & ->)]. assert ([x] ∈ dkeys e) as [v Ev]%elem_of_dkeys by (apply Hk'; eauto). rewrite Ev. destruct (Hv' x v Ev) as (L' & HL' & ->).
    do 2 f_equal. apply Permutation_length, NoDup_Permutation; [apply HL'|apply HLe|]. intros y. by rewrite (proj2 HL' y), (proj2 HLe y).
Qed.
(** The overlap degrees of the combinations with a given layer add up to the degree in
    that layer. *)
Theorem C82_degree_sum w fi h p d l x C L : mhist [CCat w] false 0 fi h p -> w <> 0 -> no_loops p -> weights p (fun v => v = 0 \/ v = 1) ->
  overlap_degs true p = Ok d -> mhas p 1 l -> lists_exactly C (fun c => c ∈ dkeys d /\ l ∈ c) -> lists_exactly L (fun y => mlinked p [x; l] [y; l]) ->
  zsumf (fun c => overlap_degree d c x) C = Z.of_nat (length L).
Proof.
  intros Hh Hw Hs Hu E Hl [HCn HC] [HLn HLe]. pose proof (mhist_inv _ _ _ _ _ _ Hh) as Hi.
  assert (Hz : forall l x, wt p l x x = 0) by (intros ? ?; by apply wt_self).
  assert (H01 : forall l x y, wt p l x y = 0 \/ wt p l x y = 1) by (intros ? ? ?; apply (weights_wt p (fun v => v = 0 \/ v = 1)); [done|by left]).
  destruct (ol_main w fi h p Hh Hw Hz H01) as (d' & E' & Hd). assert (d' = d) as -> by congruence.
  assert (HK : forall c, c ∈ dkeys d <-> sublist c (lays p) /\ c <> []).
  { intros c. rewrite elem_of_dkeys. specialize (Hd c). destruct (dget d c) as [e|]; [|split; [by intros [? ?]|done]]. split; [tauto|eauto]. }
  assert (Hn : forall y, exs p x y <> [] -> x ∈ mnodes p /\ y ∈ mnodes p /\ forall k, k ∈ exs p x y -> mexists p [x; k]).
  { intros y Hy. assert (Hk : forall k, k ∈ exs p x y -> wt p k x y <> 0) by (intros k [? _]%elem_of_list_filter; done).
    destruct (exs p x y) as [|k0 c0]; [done|]. pose proof (Hk k0 ltac:(left)) as (_ & ? & ?)%(wt_out w fi h p k0 x y Hh). split; [done|]. split; [done|].
    intros k Hin%Hk. apply bl_1, (bl_el w fi h p Hi) in Hin as [H1%(el_1 w fi h p Hi) _]. done. }
  assert (Hdeg : forall c, c ∈ dkeys d -> overlap_degree d c x = zsumf (fun y => if decide (exs p x y = c) then 1 else 0) (mnodes p)).
  { intros c Hc. apply HK in Hc as Hc'. destruct Hc' as [Hc1 Hc2]. apply elem_of_dkeys in Hc as [e He]. specialize (Hd c). rewrite He in Hd. destruct Hd as (_ & _ & Hk & Hv).
    unfold overlap_degree. rewrite He. change (default [] (Some e)) with e. destruct (dget e [x]) as [v|] eqn:Ev; cbn [default]; unfold id.
    - destruct (Hv x v Ev) as (M & [HM1 HM2] & ->). rewrite <- (zsumf_filter (fun y => exs p x y = c) (fun _ => 1)), zsumf_const, Z.mul_1_l. f_equal.
      apply Permutation_length, NoDup_Permutation; [done|apply NoDup_filter, (NoDup_mnodes w fi h p Hi)|].
      intros y. rewrite HM2, elem_of_list_filter. split; [|tauto]. intros Hy. split; [done|]. apply Hn. by rewrite Hy.
    - rewrite zsumf_zero; [done|]. intros y _. destruct (decide (exs p x y = c)) as [Hy|]; [|done]. exfalso. assert ([x] ∈ dkeys e) as [v Hv2]%elem_of_dkeys; [|congruence].
      apply Hk. exists x. split; [done|]. apply (on_comb_iff w fi h p c x Hh Hc1 Hc2). destruct (Hn y) as (_ & _ & H3); [by rewrite Hy|].
      destruct c as [|k c]; [done|]. exists k. split; [left|]. apply H3. rewrite Hy. left. }
  rewrite (zsumf_ext _ (fun c => zsumf (fun y => if decide (exs p x y = c) then 1 else 0) (mnodes p))) by (intros c [Hc _]%HC; by apply Hdeg).
  rewrite zsumf_swap. rewrite (zsumf_ext _ (fun y => if decide (l ∈ exs p x y) then 1 else 0)).
  - rewrite <- (zsumf_filter (fun y => l ∈ exs p x y) (fun _ => 1)), zsumf_const, Z.mul_1_l. f_equal.
    apply Permutation_length, NoDup_Permutation; [apply NoDup_filter, (NoDup_mnodes w fi h p Hi)|done|].
    intros y. rewrite HLe, (linked_intra w fi h p Hh Hs), bl_1, elem_of_list_filter. unfold exs. rewrite elem_of_list_filter. split; [tauto|].
    intros Hy. pose proof Hy as (? & _ & ?)%(wt_out w fi h p l x y Hh). done.
  - intros y _. destruct (decide (l ∈ exs p x y)) as [Hy|Hy].
    + assert (exs p x y ∈ C) as Hin. { apply HC. split; [|done]. apply HK. split; [apply exs_sub|]. intros E0. rewrite E0 in Hy. by apply elem_of_nil in Hy. }
      clear -HCn Hin. induction C as [|c C IH]; [by apply elem_of_nil in Hin|]. apply NoDup_cons in HCn as [Hc HCn]. rewrite zsumf_cons. destruct (decide (exs p x y = c)) as [<-|Hne].
      * rewrite zsumf_zero; [lia|]. intros c' Hc'. rewrite decide_False; [done|]. intros <-. done.
      * apply elem_of_cons in Hin as [|Hin]; [done|]. rewrite IH by done. done.
    + apply zsumf_zero. intros c [_ Hc]%HC. rewrite decide_False; [done|]. intros <-. done.
Qed.
(** Other networks. *)
Theorem C82_errors : (forall dir noe fi h p, mhist [] dir noe fi h p -> forall imported, overlap_degs imported p = Err IndexError) /\
  (forall cs dir noe fi h p, mhist cs dir noe fi h p -> (2 <= length cs)%nat \/ (exists m, CNet m ∈ cs) -> overlap_degs true p = Err AssertionError).
Proof.
  split.
  - intros dir noe fi h p Hi%mhist_inv. pose proof (pi_wf _ _ _ _ _ _ Hi) as Hp. pose proof (pw_len p Hp) as Hl. rewrite (pinv_asp _ _ _ _ _ _ Hi) in Hl. cbn [length] in Hl.
    unfold overlap_degs, pslices. destruct (mslices p) as [|s [|]]; done.
  - intros cs dir noe fi h p Hh Hc. pose proof (mhist_inv _ _ _ _ _ _ Hh) as Hi. pose proof (pi_wf _ _ _ _ _ _ Hi) as Hp. pose proof (pw_len p Hp) as Hl. rewrite (pinv_asp _ _ _ _ _ _ Hi) in Hl.
    assert (1 <= length cs)%nat as H1. { destruct Hc as [|[m Hm]]; [lia|]. destruct cs; [by apply elem_of_nil in Hm|simpl; lia]. }
    unfold overlap_degs, pslices. destruct (mslices p) as [|s [|t ss]]; [done|simpl in Hl; lia|]. cbn [lookup list_lookup rbind].
    rewrite (C69_wrong_arguments cs dir noe fi h p); [done|done|]. destruct Hc as [Hc|Hc]; [left|by right]. cbn [length]. lia.
Qed.
(** The module as it is does not define the functions it uses. *)
Theorem C82_missing_imports_refuted cs dir noe fi h p : mhist cs dir noe fi h p -> cs <> [] -> overlap_degs false p = Err NameError.
Proof.
  intros Hi%mhist_inv Hc. pose proof (pi_wf _ _ _ _ _ _ Hi) as Hp. pose proof (pw_len p Hp) as Hl. rewrite (pinv_asp _ _ _ _ _ _ Hi) in Hl.
  unfold overlap_degs, pslices. destruct cs; [done|]. destruct (mslices p) as [|s [|t ss]]; done.
Qed.
Definition ex82 := mcalls (new_mpx [CCat 1] false 0 true)
  [MSet [n1; n2; sa] 1; MSet [n1; n2; sb] 1; MSet [n1; n2; sc] 1; MSet [n1; n3; sa] 1; MSet [n1; n3; sb] 1; MSet [n2; n3; sb] 1; MSet [n3; n4; sc] 1; MSet [n1; n4; sc] 1].
Example C82_example : mhist [CCat 1] false 0 true ex82.1 ex82.2 /\ no_loops ex82.2 /\ weights ex82.2 (fun v => v = 0 \/ v = 1) /\
  mget_layers ex82.2 1 = Ok [sa; sb; sc] /\
  (let? d := overlap_degs true ex82.2 in Ok ((fun c => overlap_degree d c <$> [n1; n2; n3; n4]) <$> [[sa; sb; sc]; [sa; sb]; [sa; sc]; [sb]; [sc]])) =
    Ok [[1; 1; 0; 0]; [1; 0; 1; 0]; [0; 0; 0; 0]; [0; 1; 1; 0]; [1; 0; 1; 2]].
Proof.
  assert (mhist [CCat 1] false 0 true ex82.1 ex82.2) as Hh by apply mcalls_hist. split; [done|]. split; [by eapply no_loops_by; [done|vm_compute]|].
  split; [eapply weights_by; [exact Hh|by left|by vm_compute]|]. split; by vm_compute.
Qed.
(** Networks that are not fully interconnected: the nodes on the layers are listed. *)
Definition ex82b := mcalls (new_mpx [CCat 1] false 0 false) [MSet [n1; n2; sa] 1; MSet [n1; n2; sb] 1; MSet [n1; n3; sb] 1].
Example C82_example_node_sets : mhist [CCat 1] false 0 false ex82b.1 ex82b.2 /\ no_loops ex82b.2 /\ weights ex82b.2 (fun v => v = 0 \/ v = 1) /\
  overlap_degs true ex82b.2 = Ok [([sa; sb], [([n1], 1); ([n2], 1); ([n3], 0)]); ([sa], [([n1], 0); ([n2], 0)]); ([sb], [([n1], 1); ([n2], 0); ([n3], 1)])].
Proof.
  assert (mhist [CCat 1] false 0 false ex82b.1 ex82b.2) as Hh by apply mcalls_hist. split; [done|]. split; [by eapply no_loops_by; [done|vm_compute]|].
  split; [eapply weights_by; [exact Hh|by left|by vm_compute]|]. by vm_compute.
Qed.
(** With other weights the result is different: a link of weight 2 in one of two layers
    counts as a link shared by both, and is not counted in its layer. *)
Definition ex82c := mcalls (new_mpx [CCat 1] false 0 true) [MSet [n1; n2; sa] 2; MSet [n1; n3; sb] 1].
Theorem C82_weights_refuted : exists h p d, mhist [CCat 1] false 0 true h p /\ no_loops p /\ weights p (fun v => 0 <= v) /\ overlap_degs true p = Ok d /\
  overlap_degree d [sa; sb] n1 = 1 /\ overlap_degree d [sa] n1 = 0 /\ linked_exactly_in p [sa] n1 n2 /\ (forall y, ~ linked_exactly_in p [sa; sb] n1 y).
Proof.
  assert (mhist [CCat 1] false 0 true ex82c.1 ex82c.2) as Hh by apply mcalls_hist. exists ex82c.1, ex82c.2. eexists. split; [done|].
  assert (no_loops ex82c.2) as Hs by by eapply no_loops_by; [done|vm_compute]. split; [done|]. split; [eapply weights_by; [exact Hh|done|by vm_compute]|].
  split; [vm_compute; reflexivity|]. split; [by vm_compute|]. split; [by vm_compute|]. pose proof (mhist_inv _ _ _ _ _ _ Hh) as Hi.
  assert (HL : forall l, mhas ex82c.2 1 l <-> l = sa \/ l = sb).
  { intros l. rewrite <- psl_mhas, <- (lays_psl 1 true _ _ Hi). assert (lays ex82c.2 = [sa; sb]) as -> by by vm_compute. by rewrite !elem_of_cons, elem_of_nil; naive_solver. }
  split.
  - intros l [-> | ->]%HL; rewrite (linked_intra 1 true _ _ Hh Hs), elem_of_list_singleton; [split; [done|by vm_compute]|]. split; [by vm_compute|done].
  - intros y Hy. pose proof (proj2 (Hy sa (proj2 (HL sa) ltac:(by left))) ltac:(left)) as H1. pose proof (proj2 (Hy sb (proj2 (HL sb) ltac:(by right))) ltac:(right; left)) as H2.
    apply (linked_intra 1 true _ _ Hh Hs) in H1, H2. pose proof H1 as H1'. apply bl_1, (wt_out 1 true _ _ _ _ _ Hh) in H1' as (_ & _ & Hy').
    assert (mnodes ex82c.2 = [n1; n2; n3]) as E by by vm_compute. rewrite E in Hy'. rewrite !elem_of_cons, elem_of_nil in Hy'. destruct Hy' as [-> | [-> | [-> | []]]];
      [vm_compute in H1; discriminate H1|vm_compute in H2; discriminate H2|vm_compute in H1; discriminate H1].
Qed.
Print Assumptions C82_overlap_degrees.
Print Assumptions C82_degree_sum.
Print Assumptions C82_errors.
Print Assumptions C82_weights_refuted.
Print Assumptions C82_missing_imports_refuted.
