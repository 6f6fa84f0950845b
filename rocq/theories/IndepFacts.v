(** * Splitting the equations into independent and dependent ones *)
From stdpp Require Import prelude relations.
From Verif Require Import Base Net Supra TransFacts TransFacts2 Samp SampFacts Graphlet GraphletSpec GraphletFacts SccFacts Indep IndepSpec.
Local Open Scope nat_scope.

Section split.
Context {V : Type} `{EqDecision V} (three : V -> bool) (ord : list V -> list V).
Hypothesis Hord : forall l, ord l ≡ₚ l.

Lemma derived_mono (net : dict V (list V)) I J v : (forall x, x ∈ I -> x ∈ J) -> derived net I v -> derived net J v.
Proof. intros H. induction 1 as [v Hv|v us E Hn _ IH]; [by constructor; auto|]. by apply (derived_by net J v us). Qed.

Section one.
Context (net : dict V (list V)).
Hypothesis Hs : sound_net three net.
(** what is known after the elements satisfying [A] have been treated *)
Definition good (A : V -> Prop) (s : list V * list V) : Prop :=
  NoDup (s.1 ++ s.2) /\ (forall x, x ∈ s.1 ++ s.2 <-> A x) /\ (forall v, v ∈ s.2 -> derived net (s.1) v /\ dget net v <> Some []) /\
  (forall v, v ∈ s.1 -> dget net v = Some [] \/ on_cycle net v).

Lemma good_ind A s e : good A s -> ~ A e -> (dget net e = Some [] \/ on_cycle net e) ->
  good (fun x => A x \/ x = e) (sadd e (s.1), s.2).
Proof.
  intros (H1 & H2 & H3 & H4) He Hr. assert (e ∉ s.1 ++ s.2) as Hn by (by rewrite H2).
  unfold sadd. rewrite decide_False by (intros ?; apply Hn; set_solver). split_and!; cbn [fst snd].
  - apply NoDup_app in H1 as (N1 & N2 & N3). rewrite elem_of_app in Hn. apply NoDup_app. split; [apply NoDup_app; split; [done|]; split; [|apply NoDup_singleton]; set_solver|].
    split; [|done]. intros x [Hx|Hx%elem_of_list_singleton]%elem_of_app; [by apply N2|]. subst. tauto.
  - intros x. rewrite <- H2. set_solver.
  - intros v Hv. split; [|by apply H3]. eapply derived_mono; [|by apply H3]. set_solver.
  - intros v [Hv|Hv%elem_of_list_singleton]%elem_of_app; [by apply H4|by subst].
Qed.
Lemma good_dep A s e us : good A s -> ~ A e -> dget net e = Some us -> us <> [] -> (forall u, u ∈ us -> A u) ->
  good (fun x => A x \/ x = e) (s.1, sadd e (s.2)).
Proof.
  intros (H1 & H2 & H3 & H4) He E Hus HA. assert (e ∉ s.1 ++ s.2) as Hn by (by rewrite H2).
  unfold sadd. rewrite decide_False by (intros ?; apply Hn; set_solver). split_and!; cbn [fst snd].
  - rewrite app_assoc. apply NoDup_app. split; [done|]. split; [|apply NoDup_singleton]. intros x Hx Hx'%elem_of_list_singleton. by subst.
  - intros x. rewrite <- H2. set_solver.
  - intros v [Hv|Hv%elem_of_list_singleton]%elem_of_app; [by apply H3|]. subst v. split; [|rewrite E; congruence].
    apply (derived_by net (s.1) e us); [done..|]. intros u Hu%HA%H2%elem_of_app. destruct Hu as [Hu|Hu]; [by constructor|by apply H3].
  - done.
Qed.
Lemma good_inds A s l : good A s -> NoDup l -> (forall x, x ∈ l -> ~ A x /\ on_cycle net x) -> good (fun x => A x \/ x ∈ l) (sunion (s.1) l, s.2).
Proof.
  revert A s. induction l as [|e l IH]; intros A s Hg Hnd Hl.
  - cbn [sunion foldl]. destruct s as [i d]. destruct Hg as (H1 & H2 & H3 & H4). split_and!; try done. intros x. cbn [fst snd]. rewrite elem_of_nil. specialize (H2 x). cbn in H2. tauto.
  - apply NoDup_cons in Hnd as [He Hnd]. destruct (Hl e) as [HAe Hce]; [by left|].
    specialize (IH _ _ (good_ind A s e Hg HAe (or_intror Hce)) Hnd). cbn [fst snd] in IH. unfold sunion. cbn [foldl].
    destruct IH as (H1 & H2 & H3 & H4).
    + intros x Hx. destruct (Hl x) as [? ?]; [by right|]. split; [|done]. intros [?| ->]; done.
    + split_and!; try done. intros x. rewrite H2, elem_of_cons. tauto.
Qed.

Lemma strong_cycle x y : strong net x y -> x <> y -> on_cycle net x.
Proof.
  intros [H1 H2] Hne. unfold on_cycle. apply rtc_tc in H1 as [->|H1]; [done|]. eapply tc_rtc_r; eauto.
Qed.
Lemma arc_cycle x y : arc net x y -> strong net x y -> on_cycle net x.
Proof. intros H1 [_ H2]. unfold on_cycle. eapply tc_rtc_r; [by apply tc_once|done]. Qed.

Lemma split_comp A s c : good A s -> NoDup c -> (forall x, x ∈ c -> ~ A x /\ x ∈ dkeys net) ->
  (forall x y, x ∈ c -> y ∈ c -> strong net x y) -> (forall x y, x ∈ c -> arc net x y -> A y \/ y ∈ c) ->
  exists s', split_step three ord net s c = Ok s' /\ good (fun x => A x \/ x ∈ c) s'.
Proof.
  intros Hg Hnd Hc Hst Harc. destruct Hs as (Hk & Ht & H3). unfold split_step.
  destruct (list_find _ (ord c)) as [[i e]|] eqn:Ef.
  - apply list_find_Some in Ef as (Hi & He & _). apply elem_of_list_lookup_2 in Hi. rewrite (Hord c) in Hi.
    eexists. split; [done|]. destruct (Hc e Hi) as [HAe Hke]. apply elem_of_dkeys in Hke as [us Eus]. destruct (H3 e us He Eus) as [Hne Hnu].
    pose proof (good_inds A s (sdiff c [e]) Hg) as Hg1. destruct Hg1 as [N1 N2].
    { by apply NoDup_filter. }
    { intros x [Hx Hxe]%elem_of_sdiff. split; [by apply Hc|]. rewrite elem_of_list_singleton in Hxe. apply (strong_cycle x e); [by apply Hst|done]. }
    pose proof (good_dep _ _ e us (conj N1 N2)) as Hg2. cbn [fst snd] in Hg2. destruct Hg2 as (M1 & M2 & M3 & M4); try done.
    { intros [?|[_ Hx]%elem_of_sdiff]; [done|]. apply Hx. by apply elem_of_list_singleton. }
    { intros u Hu. rewrite elem_of_sdiff, elem_of_list_singleton. destruct (Harc e u Hi) as [?|?]; [by exists us|by left|]. right. split; [done|]. intros ->. done. }
    split_and!; try done. cbn [fst snd] in M2 |- *. intros x. rewrite M2, elem_of_sdiff, elem_of_list_singleton. split; [intros [[?|[? ?]]| ->]; auto|].
    intros [?|Hx]; [by left; left|]. destruct (decide (x = e)); [by right|]. by left; right.
  - clear Ef. assert (forall Q s0 (A0 : V -> Prop), good A0 s0 -> NoDup Q -> (forall x, x ∈ Q -> x ∈ c /\ ~ A0 x) -> (forall x, A x -> A0 x) -> (forall x, x ∈ c -> A0 x \/ x ∈ Q) ->
      exists s', rfold (fun (s : list V * list V) e => match dget net e with None => Err KeyError | Some us => let both := sunion (s.1) (s.2) in
        if decide (length us = 0) then Ok (sadd e (s.1), s.2) else if forallb (fun u => lin u both) us then Ok (s.1, sadd e (s.2)) else Ok (sadd e (s.1), s.2) end) s0 Q = Ok s' /\
      good (fun x => A0 x \/ x ∈ Q) s') as H.
    { induction Q as [|e Q IH]; intros s0 A0 Hg0 HnQ HQ HA HcQ.
      - exists s0. split; [done|]. destruct Hg0 as (G1 & G2 & G3 & G4). split_and!; try done. intros x. rewrite elem_of_nil, G2. tauto.
      - apply NoDup_cons in HnQ as [HeQ HnQ]. destruct (HQ e) as [Hec HeA]; [by left|]. destruct (Hc e Hec) as [_ Hke]. apply elem_of_dkeys in Hke as [us Eus].
        assert (exists s1, (match dget net e with None => Err KeyError | Some us => let both := sunion (s0.1) (s0.2) in
          if decide (length us = 0) then Ok (sadd e (s0.1), s0.2) else if forallb (fun u => lin u both) us then Ok (s0.1, sadd e (s0.2)) else Ok (sadd e (s0.1), s0.2) end) = Ok s1 /\ good (fun x => A0 x \/ x = e) s1) as (s1 & E1 & Hg1).
        { rewrite Eus. cbn zeta. destruct (decide (length us = 0)) as [El|El].
          - eexists. split; [done|]. apply good_ind; [done..|]. left. destruct us; [done|done].
          - destruct (forallb _ us) eqn:Eb.
            + eexists. split; [done|]. apply (good_dep A0 s0 e us); [done..| |]. { by intros ->. }
              intros u Hu. rewrite forallb_forall in Eb. apply elem_of_list_In in Hu. apply Eb, lin_true, elem_of_sunion in Hu. apply (proj1 (proj2 Hg0) u). by apply elem_of_app.
            + eexists. split; [done|]. apply good_ind; [done..|]. right. apply not_true_iff_false in Eb. rewrite forallb_forall in Eb.
              destruct (decide (Forall (fun u => u ∈ sunion (s0.1) (s0.2)) us)) as [Hall|Hex].
              * exfalso. apply Eb. intros u Hu%elem_of_list_In. apply lin_true. rewrite Forall_forall in Hall. by apply Hall.
              * apply not_Forall_Exists in Hex; [|intros ?; apply _]. apply Exists_exists in Hex as (u & Hu & Hnu). cbn in Hnu.
                assert (arc net e u) as Ha by (by exists us). apply (arc_cycle e u Ha). apply Hst; [done|].
                destruct (Harc e u Hec Ha) as [?|?]; [|done]. exfalso. apply Hnu. apply elem_of_sunion. apply elem_of_app. apply (proj1 (proj2 Hg0) u). auto. }
        cbn [rfold]. cbn zeta in E1. rewrite E1. destruct (IH s1 _ Hg1) as (s' & E' & Hg'); [done| | | |].
        + intros x Hx. destruct (HQ x) as [? ?]; [by right|]. split; [done|]. intros [?| ->]; done.
        + auto.
        + intros x Hx. destruct (HcQ x Hx) as [?|[->|?]%elem_of_cons]; auto.
        + exists s'. split; [done|]. destruct Hg' as (G1 & G2 & G3 & G4). split_and!; try done. intros x. rewrite G2, elem_of_cons. tauto. }
    destruct (H (ord c) s A) as (s' & E & Hg'); try done.
    + by rewrite Hord.
    + intros x Hx. rewrite Hord in Hx. split; [done|]. by apply Hc.
    + intros x Hx. right. by rewrite Hord.
    + exists s'. split; [done|]. destruct Hg' as (G1 & G2 & G3 & G4). split_and!; try done. intros x. rewrite G2. by rewrite (Hord c).
Qed.

Lemma split_ok L : concat L ≡ₚ dkeys net -> (forall c, c ∈ L -> forall x y, x ∈ c -> y ∈ c -> strong net x y) -> sinks_first net L ->
  exists I D, independents_and_dependents three ord L net = Ok (I, D) /\ I ++ D ≡ₚ dkeys net /\
    (forall v, v ∈ D -> derived net I v /\ dget net v <> Some []) /\ (forall v, v ∈ I -> dget net v = Some [] \/ on_cycle net v).
Proof.
  intros Hcat Hst Hsf. unfold independents_and_dependents.
  assert (NoDup (concat L)) as Hnd by (rewrite Hcat; by apply Hs).
  assert (forall L2 L1 s, L = L1 ++ L2 -> good (fun x => x ∈ concat L1) s -> exists s', rfold (split_step three ord net) s L2 = Ok s' /\ good (fun x => x ∈ concat L) s') as H.
  { induction L2 as [|c L2 IH]; intros L1 s EL Hg.
    - exists s. split; [done|]. by rewrite EL, app_nil_r.
    - cbn [rfold]. destruct (split_comp (fun x => x ∈ concat L1) s c Hg) as (s1 & E1 & Hg1).
      + rewrite EL, concat_app in Hnd. cbn [concat] in Hnd. apply NoDup_app in Hnd as (_ & _ & Hnd). by apply NoDup_app in Hnd as (? & _).
      + intros x Hx. rewrite EL, concat_app in Hnd. cbn [concat] in Hnd. apply NoDup_app in Hnd as (_ & Hd & _). split; [intros Hx'; apply (Hd x Hx'); set_solver|].
        rewrite <- Hcat, EL, concat_app. cbn [concat]. set_solver.
      + apply Hst. rewrite EL. set_solver.
      + intros x y Hx Hxy. pose proof (Hsf L1 c L2 x y EL Hx Hxy) as Hy. rewrite concat_app in Hy. cbn [concat] in Hy. rewrite app_nil_r in Hy. by apply elem_of_app in Hy.
      + rewrite E1. apply (IH (L1 ++ [c])); [by rewrite <- app_assoc|]. destruct Hg1 as (G1 & G2 & G3 & G4). split_and!; try done.
        intros x. rewrite G2, concat_app. cbn [concat]. rewrite app_nil_r. by rewrite elem_of_app. }
  destruct (H L [] ([], [])) as ([I D] & E & G1 & G2 & G3 & G4); [done| |].
  { split_and!; cbn; [apply NoDup_nil_2|done|..]; intros v Hv; by apply elem_of_nil in Hv. }
  exists I, D. split; [done|]. split; [|by split]. cbn [fst snd] in *. apply NoDup_Permutation; [done|apply Hs|]. intros x. rewrite G2. by rewrite Hcat.
Qed.

(** the split of a network *)
Lemma net_split : exists L I D, sccs net = Ok L /\ independents_and_dependents three ord L net = Ok (I, D) /\ I ++ D ≡ₚ dkeys net /\
    (forall v, v ∈ D -> derived net I v /\ dget net v <> Some []) /\ (forall v, v ∈ I -> dget net v = Some [] \/ on_cycle net v).
Proof.
  destruct Hs as (Hk & Ht & H3). destruct (sccs_ok net Hk Ht) as (L & E & Hc & Hst & Hsf).
  destruct (split_ok L Hc) as (I & D & HI); [|done|by exists L, I, D]. intros c Hcin x y Hx Hy. by apply (proj2 (Hst c Hcin) x y).
Qed.
End one.

(** ** The choice with the most dependent equations *)
Lemma zip_dict {A B} (ks : list A) (vs : list B) : length ks = length vs -> (zip ks vs).*1 = ks /\ (zip ks vs).*2 = vs.
Proof. intros H. split; [apply fst_zip|apply snd_zip]; lia. Qed.
Lemma choices_ok (alts : dict V (list (list V))) net : NoDup (dkeys alts) -> net ∈ choices alts <-> chosen alts net.
Proof.
  intros Hnd. unfold choices. rewrite elem_of_list_fmap.
  assert (forall vs, vs ∈ cart ((fun ds : list (list V) => match ds with [] => [[]] | _ => ds end) <$> alts.*2) <->
    Forall2 (fun us (kv : V * list (list V)) => us ∈ kv.2 \/ kv.2 = [] /\ us = []) vs alts) as Hvs.
  { intros vs. rewrite elem_of_cart. rewrite <- list_fmap_compose, Forall2_fmap_r. split; (intros H; eapply Forall2_impl; [exact H|]); intros us [k ds]; cbn.
    - destruct ds; [|by left]. intros ->%elem_of_list_singleton. by right.
    - intros [H0|[-> ->]]; [destruct ds; [by apply elem_of_nil in H0|done]|]. by apply elem_of_list_singleton. }
  split.
  - intros (vs & -> & HF%Hvs). assert (length (dkeys alts) = length vs) as Hl by (unfold dkeys; rewrite fmap_length; symmetry; by eapply Forall2_length).
    destruct (zip_dict (dkeys alts) vs Hl) as [E1 E2]. split; [done|]. intros v ds us Hd Hu.
    assert (NoDup (dkeys (zip (dkeys alts) vs))) as Hnd2 by (unfold dkeys at 1; by rewrite E1).
    apply dget_elem_of in Hd; [|done]. apply dget_elem_of in Hu; [|done]. apply elem_of_list_lookup in Hd as (i & Hi). apply elem_of_list_lookup in Hu as (j & Hj).
    apply lookup_zip_with_Some in Hj as (v' & us' & Evu & Hj1 & Hj2). injection Evu as <- <-.
    assert (dkeys alts !! i = Some v) as Hi' by (unfold dkeys; by rewrite list_lookup_fmap, Hi).
    assert (i = j) as -> by exact (NoDup_lookup (dkeys alts) i j v Hnd Hi' Hj1). by apply (Forall2_lookup_lr _ _ _ _ _ _ HF Hj2 Hi).
  - intros [Hk Hc]. exists (net.*2). split.
    + rewrite <- Hk. unfold dkeys. clear. induction net as [|[k v] net IH]; [done|]. cbn. by f_equal.
    + apply Hvs. apply Forall2_same_length_lookup. split.
      * rewrite fmap_length. transitivity (length (dkeys net)); [by unfold dkeys; rewrite fmap_length|]. rewrite Hk. unfold dkeys. by rewrite fmap_length.
      * intros i us [v ds] Hi Hj. rewrite list_lookup_fmap in Hi. destruct (net !! i) as [[v' us']|] eqn:En; [|done]. injection Hi as <-.
        assert (dkeys net !! i = Some v') as H1 by (unfold dkeys; by rewrite list_lookup_fmap, En).
        assert (dkeys alts !! i = Some v) as H2 by (unfold dkeys; by rewrite list_lookup_fmap, Hj). rewrite Hk in H1. assert (v' = v) as -> by congruence.
        apply (Hc v ds us').
        -- apply dget_elem_of; [done|]. by eapply elem_of_list_lookup_2.
        -- apply dget_elem_of; [by rewrite Hk|]. by eapply elem_of_list_lookup_2.
Qed.

Definition split_of (net : dict V (list V)) (r : list V * list V) : Prop :=
  exists L, sccs net = Ok L /\ independents_and_dependents three ord L net = Ok r.
Lemma all_ok (alts : dict V (list (list V))) : NoDup (dkeys alts) -> (forall net, chosen alts net -> sound_net three net) ->
  (all_inds_and_deps three ord alts = Err NameError /\ forall net I D, chosen alts net -> split_of net (I, D) -> D = []) \/
  exists I D net, all_inds_and_deps three ord alts = Ok (I, D, net) /\ chosen alts net /\ split_of net (I, D) /\ D <> [] /\
    forall net' I' D', chosen alts net' -> split_of net' (I', D') -> length D' <= length D.
Proof.
  intros Hnd Hall. unfold all_inds_and_deps.
  set (step := fun (best : list V * list V * option (dict V (list V))) net => _).
  assert (forall C2 C1 (best : list V * list V * option (dict V (list V))), (forall net, net ∈ C1 ++ C2 -> sound_net three net) ->
     (forall net I D, net ∈ C1 -> split_of net (I, D) -> length D <= length (best.1.2)) ->
     match best.2 with None => best.1 = ([], []) | Some net => net ∈ C1 /\ split_of net (best.1) /\ best.1.2 <> [] end ->
     exists best', rfold step best C2 = Ok best' /\ (forall net I D, net ∈ C1 ++ C2 -> split_of net (I, D) -> length D <= length (best'.1.2)) /\
       match best'.2 with None => best'.1 = ([], []) | Some net => net ∈ C1 ++ C2 /\ split_of net (best'.1) /\ best'.1.2 <> [] end) as H.
  { induction C2 as [|net C2 IH]; intros C1 best Hsd Hle Hb.
    - exists best. rewrite app_nil_r. done.
    - destruct (net_split net) as (L & I & D & E1 & E2 & _); [apply Hsd; set_solver|].
      cbn [rfold]. unfold step at 1. rewrite E1. cbn [rbind]. rewrite E2. cbn [rbind fst snd].
      assert (split_of net (I, D)) as Hsp by (by exists L).
      assert (forall I' D', split_of net (I', D') -> (I', D') = (I, D)) as Hun. { intros I' D' (L' & F1 & F2). congruence. }
      destruct (IH (C1 ++ [net]) (if decide (length (best.1.2) < length D) then (I, D, Some net) else best)) as (b' & Eb & H1 & H2).
      + intros n' Hn'. apply Hsd. set_solver.
      + intros n' I' D' [Hn'|Hn'%elem_of_list_singleton]%elem_of_app Hs'.
        * specialize (Hle n' I' D' Hn' Hs'). destruct (decide _); cbn; lia.
        * subst n'. apply Hun in Hs'. injection Hs' as -> ->. destruct (decide _); cbn; lia.
      + destruct (decide _) as [Hlt|Hlt]; cbn [fst snd].
        * split; [set_solver|]. split; [done|]. by intros ->; cbn in Hlt; lia.
        * destruct (best.2); [|done]. destruct Hb as (? & ? & ?). split; [set_solver|done].
      + exists b'. rewrite <- app_assoc in H1, H2. done. }
  destruct (H (choices alts) [] ([], [], None)) as (b & Eb & H1 & H2).
  - intros net Hn. apply Hall. by apply choices_ok.
  - intros net I D Hn. by apply elem_of_nil in Hn.
  - done.
  - cbn [app] in H1, H2. rewrite Eb. cbn [rbind]. destruct b as [[I D] [net|]]; cbn [fst snd] in *.
    + right. exists I, D, net. destruct H2 as (M1 & M2 & M3). split; [done|]. split; [by apply choices_ok|]. split_and!; try done.
      intros net' I' D' Hc' Hs'. apply (H1 net' I'); [by apply choices_ok|done].
    + left. split; [done|]. intros net I' D' Hc' Hs'. injection H2 as -> ->. specialize (H1 net I' D' ltac:(by apply choices_ok) Hs'). cbn in H1. destruct D'; [done|cbn in H1; lia].
Qed.
End split.
