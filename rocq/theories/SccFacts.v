(** * The two depth-first searches of SCCs *)
From stdpp Require Import prelude relations.
From Verif Require Import Base Net Supra TransFacts TransFacts2 Samp SampFacts EsuRun Graphlet GraphletSpec GraphletFacts.
Local Open Scope nat_scope.

Section scc.
Context {V : Type} `{EqDecision V}.
Notation graph := (dict V (list V)).
(** every successor is itself a key *)
Definition tight (net : graph) : Prop := forall k us u, dget net k = Some us -> u ∈ us -> u ∈ dkeys net.

Section explore.
Context (net : graph).
Hypothesis Hnd : NoDup (dkeys net).
Hypothesis Ht : tight net.
Definition avoid (W : list V) (a b : V) : Prop := arc net a b /\ b ∉ W.
Definition closedW (P W : list V) : Prop := forall a b, a ∈ P -> arc net a b -> b ∈ W.
Definition ordered (P : list V) : Prop := forall P1 u P2 x, P = P1 ++ u :: P2 ->
  rtc (fun a b => arc net a b /\ a ∈ P1 ++ [u] /\ b ∈ P1 ++ [u]) x u -> rtc (arc net) u x.

Lemma rtc_in (A : V -> Prop) (R : V -> V -> Prop) x y : (forall a b, A a -> R a b -> A b) -> rtc R x y -> A x -> A y.
Proof. intros H. induction 1; eauto. Qed.
Lemma avoid_mono W W' x y : (forall z, z ∈ W -> z ∈ W') -> rtc (avoid W') x y -> rtc (avoid W) x y.
Proof. intros H. apply rtc_subrel. intros a b [H1 H2]. split; [done|]. auto. Qed.
Lemma avoid_arc W x y : rtc (avoid W) x y -> rtc (arc net) x y.
Proof. apply rtc_subrel. by intros a b [? _]. Qed.

Lemma explore_ok : forall fuel v W P, v ∈ dkeys net -> v ∉ W -> NoDup W -> (forall x, x ∈ W -> x ∈ dkeys net) -> length (dkeys net) < fuel + length W ->
  (forall x, x ∈ P -> x ∈ W) -> closedW P W -> ordered P ->
  exists W' L, explore fuel net v (W, P) = Ok (W', P ++ L) /\ NoDup W' /\ (forall x, x ∈ W' <-> x ∈ W \/ x ∈ L) /\ NoDup L /\ (forall x, x ∈ L -> x ∉ W) /\
    v ∈ L /\ (forall x, x ∈ L -> x ∈ dkeys net) /\ (forall x, x ∈ L -> rtc (avoid W) v x) /\ closedW (P ++ L) W' /\ ordered (P ++ L).
Proof.
  induction fuel as [|fuel IH]; intros v W P Hv HvW HnW HWk Hf HPW Hcl Hord.
  { assert (length W <= length (dkeys net)) by (by apply submseteq_length, NoDup_submseteq). lia. }
  cbn [explore]. pose proof Hv as Hv'. apply elem_of_dkeys in Hv' as [us Eus]. rewrite Eus. cbn [fst snd]. set (W0 := sadd v W).
  assert (NoDup W0) as HnW0 by (by apply NoDup_sadd).
  assert (forall x, x ∈ W0 <-> x = v \/ x ∈ W) as HW0 by (intros; apply elem_of_sadd).
  assert (length W0 = S (length W)) as HlW0. { unfold W0, sadd. rewrite decide_False by done. rewrite app_length. cbn. lia. }
  assert (forall todo done L1 W1, us = done ++ todo -> NoDup W1 -> NoDup L1 -> (forall x, x ∈ W1 <-> x ∈ W0 \/ x ∈ L1) -> (forall x, x ∈ L1 -> x ∉ W0) ->
     (forall x, x ∈ L1 -> x ∈ dkeys net) -> (forall x, x ∈ L1 -> rtc (avoid W) v x) -> closedW (P ++ L1) W1 -> ordered (P ++ L1) -> (forall u, u ∈ done -> u ∈ W1) ->
     exists W2 L2, rfold (fun s u => if decide (u ∈ s.1) then Ok s else explore fuel net u s) (W1, P ++ L1) todo = Ok (W2, P ++ L2) /\
       NoDup W2 /\ NoDup L2 /\ (forall x, x ∈ W2 <-> x ∈ W0 \/ x ∈ L2) /\ (forall x, x ∈ L2 -> x ∉ W0) /\ (forall x, x ∈ L2 -> x ∈ dkeys net) /\
       (forall x, x ∈ L2 -> rtc (avoid W) v x) /\ closedW (P ++ L2) W2 /\ ordered (P ++ L2) /\ (forall u, u ∈ us -> u ∈ W2)) as Hfold.
  { induction todo as [|u todo IHt]; intros dn L1 W1 Eus' HnW1 HnL1 HW1 Hd1 Hk1 Hr1 Hc1 Ho1 Hdn.
    { exists W1, L1. rewrite app_nil_r in Eus'. subst dn. done. }
    cbn [rfold fst]. destruct (decide (u ∈ W1)) as [Hu|Hu].
    - cbn [rbind]. apply (IHt (dn ++ [u])); try done; [by rewrite <- app_assoc|]. intros z [Hz| ->%elem_of_list_singleton]%elem_of_app; auto.
    - assert (u ∈ us) as Huu by (rewrite Eus'; set_solver).
      assert (u ∈ dkeys net) as Huk by (by apply (Ht v us u)).
      destruct (IH u W1 (P ++ L1)) as (W2 & L2 & E & HnW2 & HW2 & HnL2 & Hd2 & Hu2 & Hk2 & Hr2 & Hc2 & Ho2); [done..| | | |done|done|].
      + intros x [[->|Hx]%HW0|Hx]%HW1; auto.
      + assert (length W0 <= length W1) by (apply submseteq_length, NoDup_submseteq; [done|]; intros z Hz; apply HW1; by left). lia.
      + intros x [Hx|Hx]%elem_of_app; apply HW1; [|by right]. left. apply HW0. right. auto.
      + rewrite E. cbn [rbind]. rewrite <- app_assoc in E, Hc2, Ho2 |- *. apply (IHt (dn ++ [u])).
        * by rewrite <- app_assoc.
        * done.
        * apply NoDup_app. split; [done|]. split; [|done]. intros x Hx1 Hx2. apply (Hd2 x Hx2), HW1. by right.
        * intros x. rewrite HW2, HW1, elem_of_app. tauto.
        * intros x [Hx|Hx]%elem_of_app; [auto|]. intros HxW. apply (Hd2 x Hx), HW1. by left.
        * intros x [Hx|Hx]%elem_of_app; auto.
        * intros x [Hx|Hx]%elem_of_app; [auto|]. apply (rtc_l _ _ u).
          -- split; [by exists us|]. intros HuW. apply Hu, HW1. left. apply HW0. by right.
          -- apply (avoid_mono W W1); [|by apply Hr2]. intros z Hz. apply HW1. left. apply HW0. by right.
        * done.
        * done.
        * intros z [Hz| ->%elem_of_list_singleton]%elem_of_app; apply HW2; auto. }
  destruct (Hfold us [] [] W0) as (W2 & L2 & E & HnW2 & HnL2 & HW2 & Hd2 & Hk2 & Hr2 & Hc2 & Ho2 & Hall); try done.
  - apply NoDup_nil_2.
  - intros x. rewrite elem_of_nil. tauto.
  - intros x Hx. by apply elem_of_nil in Hx.
  - intros x Hx. by apply elem_of_nil in Hx.
  - intros x Hx. by apply elem_of_nil in Hx.
  - rewrite app_nil_r. intros a b Ha Hab. apply HW0. right. by apply (Hcl a).
  - by rewrite app_nil_r.
  - intros x Hx. by apply elem_of_nil in Hx.
  - rewrite app_nil_r in E. rewrite E. cbn [rbind fst snd]. exists W2, (L2 ++ [v]). rewrite app_assoc. split; [done|].
    assert (v ∉ L2) as HvL2. { intros Hin. apply (Hd2 v Hin), HW0. by left. }
    split_and!.
    + done.
    + intros x. rewrite HW2, HW0, elem_of_app, elem_of_list_singleton. tauto.
    + apply NoDup_app. split; [done|]. split; [|apply NoDup_singleton]. intros x Hx ->%elem_of_list_singleton. done.
    + intros x [Hx| ->%elem_of_list_singleton]%elem_of_app; [|done]. intros HxW. apply (Hd2 x Hx), HW0. by right.
    + set_solver.
    + intros x [Hx| ->%elem_of_list_singleton]%elem_of_app; auto.
    + intros x [Hx| ->%elem_of_list_singleton]%elem_of_app; [auto|constructor].
    + intros a b [Ha| ->%elem_of_list_singleton]%elem_of_app Hab; [by apply (Hc2 a)|]. destruct Hab as (us' & E' & Hb). apply Hall. congruence.
    + intros P1 u P2 x Es Hp. destruct P2 as [|w P2 _] using rev_ind.
      * assert (u = v /\ P1 = P ++ L2) as [-> ->]. { symmetry in Es. change (P1 ++ [u] = (P ++ L2) ++ [v]) in Es. apply app_inj_tail in Es as [-> ->]. done. } clear Es.
        destruct (decide (x = v)) as [->|Hxv]; [constructor|].
        assert (x ∈ (P ++ L2) ++ [v]) as Hx. { apply rtc_inv in Hp as [?|(y & (_ & Ha & _) & _)]; done. }
        apply elem_of_app in Hx as [[Hx|Hx]%elem_of_app| ->%elem_of_list_singleton]; [exfalso| |constructor].
        -- apply HvW, HPW. refine (rtc_in (fun z => z ∈ P) _ x v _ Hp Hx). intros a b Ha (Hab & _ & Hb). apply (Hcl a b Ha) in Hab.
           apply elem_of_app in Hb as [[Hb|Hb]%elem_of_app| ->%elem_of_list_singleton]; [done| |done]. exfalso. apply (Hd2 b Hb), HW0. by right.
        -- apply (avoid_arc W). by apply Hr2.
      * assert (P ++ L2 = P1 ++ u :: P2 /\ w = v) as [Es' ->]. { change (u :: (P2 ++ [w])) with ((u :: P2) ++ [w]) in Es. rewrite app_assoc in Es. apply app_inj_tail in Es as [-> ->]. done. }
        by apply (Ho2 P1 u P2).
Qed.

Lemma dfs_ok : exists P, dfs net = Ok P /\ NoDup P /\ (forall x, x ∈ P <-> x ∈ dkeys net) /\ ordered P.
Proof.
  unfold dfs.
  assert (forall todo dn W P, dkeys net = dn ++ todo -> NoDup W -> NoDup P -> (forall x, x ∈ W <-> x ∈ P) -> (forall x, x ∈ P -> x ∈ dkeys net) ->
     closedW P W -> ordered P -> (forall x, x ∈ dn -> x ∈ P) ->
     exists W' P', rfold (fun s v => if decide (v ∈ s.1) then Ok s else explore (S (length net)) net v s) (W, P) todo = Ok (W', P') /\ NoDup P' /\ (forall x, x ∈ P' <-> x ∈ dkeys net) /\ ordered P') as H.
  { induction todo as [|v todo IH]; intros dn W P Ek HnW HnP HWP HPk Hcl Hord Hdn.
    - exists W, P. split; [done|]. split; [done|]. split; [|done]. intros x. split; [auto|]. rewrite Ek, app_nil_r. auto.
    - cbn [rfold fst]. destruct (decide (v ∈ W)) as [Hv|Hv].
      + cbn [rbind]. apply (IH (dn ++ [v])); try done; [by rewrite <- app_assoc|]. intros x [Hx| ->%elem_of_list_singleton]%elem_of_app; [auto|]. by apply HWP.
      + destruct (explore_ok (S (length net)) v W P) as (W2 & L2 & E & HnW2 & HW2 & HnL2 & Hd2 & Hv2 & Hk2 & Hr2 & Hc2 & Ho2); try done.
        * rewrite Ek. set_solver.
        * intros x Hx%HWP. auto.
        * unfold dkeys. rewrite fmap_length. lia.
        * intros x Hx. by apply HWP.
        * rewrite E. cbn [rbind]. apply (IH (dn ++ [v])); try done.
          -- by rewrite <- app_assoc.
          -- apply NoDup_app. split; [done|]. split; [|done]. intros x Hx%HWP Hx2. by apply (Hd2 x).
          -- intros x. rewrite HW2, elem_of_app, HWP. done.
          -- intros x [Hx|Hx]%elem_of_app; auto.
          -- intros x [Hx| ->%elem_of_list_singleton]%elem_of_app; apply elem_of_app; auto. }
  destruct (H (dkeys net) [] [] []) as (W' & P' & E & H1 & H2 & H3); try done; try apply NoDup_nil_2; try (intros x Hx; by apply elem_of_nil in Hx).
  - intros a b Ha. by apply elem_of_nil in Ha.
  - intros P1 u P2 x E. by destruct P1.
  - rewrite E. cbn [rbind snd]. by exists P'.
Qed.
End explore.

(** ** the reversed graph *)
Lemma reverse_ok (net : graph) : NoDup (dkeys net) -> tight net ->
  exists r, reverse_net net = Ok r /\ dkeys r = dkeys net /\ forall x y, arc r x y <-> arc net y x.
Proof.
  intros Hnd Ht. unfold reverse_net.
  assert (forall (l : list V) (d : graph), NoDup l -> (forall x, x ∈ l -> x ∉ dkeys d) -> dkeys (foldl (fun r v => dset r v ([] : list V)) d l) = dkeys d ++ l /\
     forall x, dget (foldl (fun r v => dset r v []) d l) x = if decide (x ∈ l) then Some [] else dget d x) as H0.
  { induction l as [|v l IH]; intros d Hl Hd; cbn [foldl]; [rewrite app_nil_r; split; [done|]; intros x; by rewrite decide_False by apply not_elem_of_nil|].
    apply NoDup_cons in Hl as [Hv Hl]. assert (dget d v = None) as Hnone. { destruct (dget d v) eqn:E; [|done]. exfalso. apply (Hd v); [left|]. apply elem_of_dkeys. by eexists. }
    destruct (IH (dset d v [])) as [I1 I2]; [done| |].
    - intros x Hx. rewrite elem_of_dkeys_dset. intros [->|H']; [done|]. apply (Hd x); [by right|done].
    - split; [rewrite I1, dkeys_dset_new by done; by rewrite <- app_assoc|]. intros x. rewrite I2, dget_dset. destruct (decide (x ∈ l)) as [Hx|Hx].
      + rewrite decide_True; [done|by right].
      + destruct (decide (x = v)) as [->|Hxv]; [rewrite decide_True; [done|left]|]. rewrite decide_False; [done|]. intros [?|?]%elem_of_cons; done. }
  destruct (H0 (dkeys net) []) as [K0 G0]; [done|intros x _ Hx; by apply elem_of_nil in Hx|]. cbn in K0. set (r0 := foldl _ _ _) in *.
  pose (flat := net ≫= (fun kv => (fun u => (kv.1, u)) <$> kv.2)).
  assert (forall x y, (x, y) ∈ flat <-> arc net x y) as Hflat.
  { intros x y. unfold flat. rewrite elem_of_list_bind. split.
    - intros ([k us] & (u & E & Hu)%elem_of_list_fmap & Hk). cbn in E, Hu. injection E as -> ->. exists us. split; [by apply dget_elem_of|done].
    - intros (us & E & Hy). exists (x, us). split; [|by apply dget_elem_of]. apply elem_of_list_fmap. by exists y. }
  pose (step := fun (r : graph) (e : V * V) => match dget r (e.2) with None => Err KeyError | Some l => Ok (dset r (e.2) (sadd (e.1) l)) end).
  assert (rfold (fun r kv => rfold (fun r u => match dget r u with None => Err KeyError | Some l => Ok (dset r u (sadd (kv.1) l)) end) r (kv.2)) r0 net = rfold step r0 flat) as ->.
  { unfold flat. rewrite <- rfold_bind. apply rfold_ext'. intros s x. by rewrite rfold_fmap. }
  assert (forall f r, dkeys r = dkeys net -> (forall a b, (a, b) ∈ f -> b ∈ dkeys net) -> exists r', rfold step r f = Ok r' /\ dkeys r' = dkeys net /\ forall x y, arc r' x y <-> arc r x y \/ (y, x) ∈ f) as H.
  { induction f as [|[a b] f IH]; intros r Hr Hf.
    - exists r. split; [done|]. split; [done|]. intros x y. rewrite elem_of_nil. tauto.
    - assert (b ∈ dkeys r) as Hb. { rewrite Hr. apply (Hf a b). left. } apply elem_of_dkeys in Hb as [l El]. cbn [rfold]. unfold step at 1. cbn [fst snd]. rewrite El. cbn [rbind].
      destruct (IH (dset r b (sadd a l))) as (r' & E & K & A).
      + rewrite dkeys_dset_old; [done|]. by eexists.
      + intros u v Huv. apply (Hf u v). by right.
      + exists r'. split; [done|]. split; [done|]. intros x y. rewrite A, elem_of_cons. unfold arc. rewrite dget_dset. destruct (decide (x = b)) as [->|Hx].
        * rewrite El. split.
          -- intros [(us & [= <-] & [->|Hy]%elem_of_sadd)|?]; auto. left. by exists l.
          -- intros [(us & [= <-] & Hy)|[[= ->]|?]]; [left|left|by right]; eexists; (split; [done|]); apply elem_of_sadd; auto.
        * split; [tauto|]. intros [?|[[= -> ->]|?]]; [by left|done|by right]. }
  destruct (H flat r0) as (r' & E & K & A); [done|intros a b (us & E & Hb)%Hflat; by apply (Ht a us)|].
  exists r'. split; [done|]. split; [done|]. intros x y. rewrite A, Hflat. split; [|by right]. intros [(us & E' & Hy)|?]; [|done].
  rewrite G0 in E'. destruct (decide (x ∈ dkeys net)); [|done]. injection E' as <-. by apply elem_of_nil in Hy.
Qed.
Lemma rtc_rev (net r : graph) x y : (forall x y, arc r x y <-> arc net y x) -> rtc (arc r) x y <-> rtc (arc net) y x.
Proof.
  intros H. split; (induction 1 as [|a b c Hab _ IH]; [constructor|]); eapply rtc_r; [done| |done|]; by apply H.
Qed.

Lemma sccs_ok (net : graph) : NoDup (dkeys net) -> tight net ->
  exists L, sccs net = Ok L /\ concat L ≡ₚ dkeys net /\ (forall c, c ∈ L -> c <> [] /\ forall x y, x ∈ c -> (y ∈ c <-> strong net x y)) /\ sinks_first net L.
Proof.
  intros Hnd Ht. destruct (reverse_ok net Hnd Ht) as (r & Er & Kr & Ar). unfold sccs. rewrite Er. cbn [rbind].
  assert (tight r) as Htr. { intros k us u E Hu. rewrite Kr. assert (arc net u k) as (us' & E' & _) by (apply Ar; by exists us). apply elem_of_dkeys. by eexists. }
  destruct (dfs_ok r) as (post & Ep & Hnp & Hpk & Hord); [by rewrite Kr|done|]. rewrite Ep. cbn [rbind]. rewrite Kr in Hpk.
  assert (forall x y, strong net x y -> strong net y x) as Hsym by (intros x y [? ?]; by split).
  assert (forall x y z, strong net x y -> strong net y z -> strong net x z) as Htrans. { intros x y z [? ?] [? ?]. split; by etransitivity. }
  pose (step := fun (s : list (list V) * (list V * list V)) v => if decide (v ∈ s.2.1) then Ok s else
    let? t := explore (S (length net)) net v (s.2) in Ok (s.1 ++ [sdiff (t.1) (s.2.1)], t)).
  assert (forall P1 S comps U Q, post = P1 ++ S -> NoDup U -> concat comps ≡ₚ U -> (forall c, c ∈ comps -> c <> [] /\ forall x y, x ∈ c -> (y ∈ c <-> strong net x y)) ->
     (forall x, x ∈ S -> x ∈ U) -> (forall x, x ∈ U -> x ∈ dkeys net) -> (forall x, x ∈ Q -> x ∈ U) -> closedW net Q U -> ordered net Q -> (forall x, x ∈ U -> x ∈ Q) -> sinks_first net comps ->
     exists comps' st, rfold step (comps, (U, Q)) (rev P1) = Ok (comps', st) /\ concat comps' ≡ₚ dkeys net /\ (forall c, c ∈ comps' -> c <> [] /\ forall x y, x ∈ c -> (y ∈ c <-> strong net x y)) /\ sinks_first net comps') as H.
  { induction P1 as [|v P1 IH] using rev_ind; intros S comps U Q Epost HnU Hcc Hcs HS HUk HQU Hcl HoQ HUQ Hsf.
    - exists comps, (U, Q). split; [done|]. split; [|by split]. rewrite Hcc. apply NoDup_Permutation; [done..|]. intros x. split; [auto|]. intros Hx. apply HS. apply Hpk in Hx. by rewrite Epost in Hx.
    - rewrite rev_app_distr. cbn [rev app rfold]. unfold step at 1. cbn [fst snd]. rewrite <- app_assoc in Epost. cbn in Epost. destruct (decide (v ∈ U)) as [Hv|Hv].
      + cbn [rbind]. apply (IH (v :: S)); try done. intros x [->|Hx]%elem_of_cons; auto.
      + destruct (explore_ok net Hnd Ht (Datatypes.S (length net)) v U Q) as (U2 & L2 & E & HnU2 & HU2 & HnL2 & Hd2 & Hv2 & Hk2 & Hr2 & Hc2 & Ho2); try done.
        * apply Hpk. rewrite Epost. set_solver.
        * unfold dkeys. rewrite fmap_length. lia.
        * rewrite E. cbn [rbind fst].
          assert (forall x, x ∈ sdiff U2 U <-> x ∈ L2) as Hsd. { intros x. rewrite elem_of_sdiff, HU2. split; [tauto|]. intros Hx. split; [by right|]. by apply Hd2. }
          assert (forall x y, x ∈ U -> strong net x y -> y ∈ U) as HUs.
          { intros x y Hx Hxy. rewrite <- Hcc in Hx |- *. apply elem_of_concat in Hx as (c & Hxc & Hc). apply elem_of_concat. exists c. split; [|done]. destruct (Hcs c Hc) as [_ Hc']. by apply (Hc' x y). }
          assert (forall x, x ∈ L2 <-> strong net v x) as HL2.
          { intros x. split.
            - intros Hx. split; [apply (avoid_arc net U); by apply Hr2|]. apply (rtc_rev net r v x Ar). apply (Hord P1 v S x Epost).
              assert (forall z, z ∉ U -> z ∈ dkeys net -> z ∈ P1 ++ [v]) as Hin. { intros z Hz Hzk%Hpk. rewrite Epost in Hzk. apply elem_of_app in Hzk as [?|[->|Hz']%elem_of_cons]; [set_solver..|]. by destruct (Hz (HS z Hz')). }
              assert (forall w, rtc (avoid net U) w x -> w ∉ U -> w ∈ dkeys net -> rtc (fun a b => arc r a b /\ a ∈ P1 ++ [v] /\ b ∈ P1 ++ [v]) x w) as Hw.
              { clear -Hin Ar Ht. intros w Hw. induction Hw as [|a b c [Hab Hb] _ IHw]; intros Ha Hak; [constructor|].
                assert (b ∈ dkeys net) as Hbk. { destruct Hab as (us & E & Hbu). by apply (Ht a us). }
                eapply rtc_r; [by apply IHw|]. split; [by apply Ar|]. split; by apply Hin. }
              apply Hw; [by apply Hr2|done|]. apply Hpk. rewrite Epost. set_solver.
            - intros [H1 H2]. assert (forall w, rtc (arc net) w x -> strong net v w -> w ∈ L2 -> x ∈ L2) as Hw; [|by apply (Hw v); [|split|]].
              clear -H2 Hc2 HUs HU2 Hv. intros w Hw. induction Hw as [|a b c Hab Hbc IHw]; intros Hs Ha; [done|].
              assert (strong net v b) as Hb. { destruct Hs as [Hs1 Hs2]. split; [by eapply rtc_r|]. by etransitivity. }
              apply IHw; [done|done|]. assert (b ∈ U2) as HbU by (apply (Hc2 a b); [set_solver|done]).
              apply HU2 in HbU as [HbU|?]; [|done]. exfalso. apply Hv. apply (HUs b v); [done|]. destruct Hb. by split. }
          apply (IH (v :: S)); try done.
          -- rewrite concat_app, Hcc. cbn. rewrite app_nil_r. apply NoDup_Permutation; [|done|].
             ++ apply NoDup_app. split; [done|]. split; [|by apply NoDup_filter]. intros x Hx [_ Hx']%elem_of_sdiff. done.
             ++ intros x. rewrite elem_of_app, Hsd. by rewrite HU2.
          -- intros c [Hc| ->%elem_of_list_singleton]%elem_of_app; [by apply Hcs|]. split; [intros E'; apply (not_elem_of_nil v); rewrite <- E'; by apply Hsd|].
             intros x y Hx. rewrite Hsd in Hx |- *. rewrite HL2 in Hx |- *. split; intros Hy; eapply Htrans; eauto.
          -- intros x [->|Hx]%elem_of_cons; apply HU2; auto.
          -- intros x [Hx|Hx]%HU2; auto.
          -- intros x [Hx|Hx]%elem_of_app; apply HU2; auto.
          -- intros x [Hx|Hx]%HU2; apply elem_of_app; auto.
          -- intros K1 c K2 x y EK Hx Hxy. destruct K2 as [|c' K2 _] using rev_ind.
             ++ apply app_inj_tail in EK as [<- <-]. rewrite concat_app, elem_of_app. cbn. rewrite app_nil_r, Hsd, Hcc.
                apply HU2. apply (Hc2 x y); [|done]. apply elem_of_app. right. by apply Hsd.
             ++ rewrite app_comm_cons, app_assoc in EK. apply app_inj_tail in EK as [-> _]. by apply (Hsf K1 c K2 x y). }
  destruct (H post [] [] [] []) as (L & st & E & H1 & H2 & H3); try done; try apply NoDup_nil_2; try (intros c Hc; by apply elem_of_nil in Hc).
  - by rewrite app_nil_r.
  - intros a b Ha. by apply elem_of_nil in Ha.
  - intros P1 u P2 x E. by destruct P1.
  - intros P1 u P2 x y E. by destruct P1.
  - exists L. unfold step in E. rewrite E. cbn [rbind fst]. done.
Qed.
Lemma sccs_keyerror (net : graph) : NoDup (dkeys net) -> ~ tight net -> sccs net = Err KeyError.
Proof.
  intros Hnd Ht. unfold sccs.
  assert (exists k us u, (k, us) ∈ net /\ u ∈ us /\ u ∉ dkeys net) as (k & us & u & Hk & Hu & Hn).
  { destruct (decide (Exists (fun kv => Exists (fun u => u ∉ dkeys net) (kv.2)) net)) as [([k us] & Hk & (u & Hu & Hn)%Exists_exists)%Exists_exists|Hno]; [by exists k, us, u|].
    exfalso. apply Ht. intros k us u E Hu. destruct (decide (u ∈ dkeys net)); [done|]. exfalso. apply Hno. apply Exists_exists. exists (k, us). split; [by apply dget_elem_of|]. apply Exists_exists. by exists u. }
  assert (reverse_net net = Err KeyError) as ->; [|done]. unfold reverse_net.
  assert (forall (l : list V) (d : graph), (forall x, x ∈ dkeys (foldl (fun r v => dset r v []) d l) <-> x ∈ dkeys d \/ x ∈ l)) as H0.
  { induction l as [|v l IH]; intros d x; cbn [foldl]; [rewrite elem_of_nil; tauto|]. rewrite IH, elem_of_dkeys_dset, elem_of_cons. tauto. }
  apply (rfold_raises _ (fun r => forall x, x ∈ dkeys r <-> x ∈ dkeys net)).
  - intros x. rewrite H0. cbn. rewrite elem_of_nil. tauto.
  - intros s [k' us'] _ Hs. cbn [snd fst]. revert s Hs. induction us' as [|u' us' IH]; intros s Hs; cbn [rfold]; [left; by exists s|].
    destruct (dget s u') as [l|] eqn:E; [|by right]. cbn [rbind]. apply IH. intros x. rewrite elem_of_dkeys_dset, Hs. split; [|by right]. intros [->|?]; [|done]. apply Hs. apply elem_of_dkeys. by eexists.
  - exists (k, us). split; [done|]. intros s Hs. cbn [snd fst]. apply (rfold_raises _ (fun r => forall x, x ∈ dkeys r <-> x ∈ dkeys net)); [done| |].
    + intros r u' _ Hr. destruct (dget r u') as [l|] eqn:E; [|by right]. left. eexists. split; [done|]. intros x. rewrite elem_of_dkeys_dset, Hr. split; [|by right]. intros [->|?]; [|done]. apply Hr. apply elem_of_dkeys. by eexists.
    + exists u. split; [done|]. intros r Hr. destruct (dget r u) as [l|] eqn:E; [|done]. exfalso. apply Hn, Hr, elem_of_dkeys. by eexists.
Qed.
End scc.
