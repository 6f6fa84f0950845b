(** * Lemmas on the graphlet functions *)
From stdpp Require Import prelude relations.
From Verif Require Import Base Net NetSpec NetFacts NetIter Supra TransFacts TransFacts2 Samp SampFacts EsuRun Graphlet GraphletSpec.
Local Open Scope nat_scope.

Section sets.
Context {V : Type} `{EqDecision V}.
Lemma elem_of_sunion (s t : list V) x : x ∈ sunion s t <-> x ∈ s \/ x ∈ t.
Proof.
  unfold sunion. revert s. induction t as [|y t IH]; intros s; cbn [foldl]; [rewrite elem_of_nil; tauto|].
  rewrite IH, elem_of_sadd, elem_of_cons. tauto.
Qed.
Lemma NoDup_sunion (s t : list V) : NoDup s -> NoDup (sunion s t).
Proof. unfold sunion. revert s. induction t as [|y t IH]; intros s Hs; cbn [foldl]; [done|]. by apply IH, NoDup_sadd. Qed.
Lemma elem_of_sdiff (s t : list V) x : x ∈ sdiff s t <-> x ∈ s /\ x ∉ t.
Proof. unfold sdiff. rewrite elem_of_list_filter. tauto. Qed.
End sets.

(** ** incremental closure *)
Section orbits.
Context {V : Type} `{EqDecision V} (nodes : list V).
Hypothesis Hnd : NoDup nodes.
Definition inrow (d : dict V (list V)) (j k : V) : Prop := exists s, dget d j = Some s /\ k ∈ s.
Definition full (d : dict V (list V)) : Prop := forall j, j ∈ nodes -> is_Some (dget d j).

Lemma orbit_step_ok d a b : full d -> b ∈ nodes ->
  exists d', orbit_step nodes d (a, b) = Ok d' /\ full d' /\
    (forall j k, j ∈ nodes -> inrow d' j k <-> inrow d j k \/ (inrow d j a /\ inrow d b k)).
Proof.
  intros Hf Hb.
  assert (forall l done d0, nodes = done ++ l -> full d0 ->
    (forall j k, j ∈ done -> inrow d0 j k <-> inrow d j k \/ (inrow d j a /\ inrow d b k)) ->
    (forall j, j ∉ done -> dget d0 j = dget d j) ->
    exists d', rfold (fun auts j => match dget auts j with None => Err KeyError | Some s =>
      if decide (a ∈ s) then match dget auts b with None => Err KeyError | Some t => Ok (dset auts j (sunion s t)) end else Ok auts end) d0 l = Ok d' /\ full d' /\
      (forall j k, j ∈ nodes -> inrow d' j k <-> inrow d j k \/ (inrow d j a /\ inrow d b k))) as H.
  { induction l as [|j l IH]; intros dn d0 En Hf0 Hdone Hrest.
    - rewrite app_nil_r in En. subst dn. exists d0. done.
    - cbn [rfold]. assert (j ∉ dn) as Hj. { intros Hj. rewrite En in Hnd. apply NoDup_app in Hnd as (_ & Hd & _). apply (Hd j Hj). by left. }
      assert (j ∈ nodes) as Hjn by (rewrite En; set_solver).
      destruct (Hf j Hjn) as [s Es]. rewrite (Hrest j Hj), Es.
      assert (forall k, inrow d j k <-> k ∈ s) as Hs. { intros k. unfold inrow. rewrite Es. naive_solver. }
      assert (exists t, dget d0 b = Some t /\ forall k, k ∈ t <-> inrow d b k) as (t & Et & Ht).
      { destruct (Hf0 b Hb) as [t Et]. exists t. split; [done|]. intros k. assert (inrow d0 b k <-> k ∈ t) as <- by (unfold inrow; rewrite Et; naive_solver).
        destruct (decide (b ∈ dn)) as [Hin|Hin].
        - rewrite (Hdone b k Hin). split; [intros [?|[_ ?]]; done|by left].
        - unfold inrow. by rewrite (Hrest b Hin). }
      destruct (decide (a ∈ s)) as [Ha|Ha].
      + rewrite Et. apply (IH (dn ++ [j])).
        * by rewrite <- app_assoc.
        * intros i Hi. rewrite dget_dset. destruct (decide _); [done|by apply Hf0].
        * intros i k [Hi| ->%elem_of_list_singleton]%elem_of_app.
          -- assert (i <> j) by congruence. unfold inrow at 1. rewrite dget_dset_ne by done. apply (Hdone i k Hi).
          -- unfold inrow at 1. rewrite dget_dset_eq. rewrite !Hs. split.
             ++ intros (? & [= <-] & [?|Hk]%elem_of_sunion); [by left|right]. split; [done|by apply Ht].
             ++ intros Hk. eexists. split; [done|]. apply elem_of_sunion. rewrite Ht. tauto.
        * intros i Hi. rewrite dget_dset_ne by set_solver. apply Hrest. set_solver.
      + apply (IH (dn ++ [j])).
        * by rewrite <- app_assoc.
        * done.
        * intros i k [Hi| ->%elem_of_list_singleton]%elem_of_app; [by apply Hdone|].
          unfold inrow at 1. rewrite (Hrest j Hj), Es, !Hs. naive_solver.
        * intros i Hi. apply Hrest. set_solver. }
  unfold orbit_step. cbn [fst snd]. apply (H nodes [] d); [done|done| |done]. intros j k Hj. by apply elem_of_nil in Hj.
Qed.
Lemma orbit_step_skip d a b : full d -> (forall j, j ∈ nodes -> ~ inrow d j a) -> orbit_step nodes d (a, b) = Ok d.
Proof.
  intros Hf Hno. unfold orbit_step. cbn [fst snd]. revert Hf Hno. unfold full. generalize nodes as l. clear Hnd. induction l as [|j l IH]; intros Hf Hno; [done|]. cbn [rfold].
  destruct (Hf j) as [s Es]; [by left|]. rewrite Es, decide_False; [apply IH|].
  - intros i Hi. apply Hf. by right.
  - intros i Hi. apply Hno. by right.
  - intros Ha. apply (Hno j); [by left|]. by exists s.
Qed.
Lemma rtc_add (E : list (V * V)) a b x y : rtc (fun u v => (u, v) ∈ E ++ [(a, b)]) x y <->
  rtc (fun u v => (u, v) ∈ E) x y \/ (rtc (fun u v => (u, v) ∈ E) x a /\ rtc (fun u v => (u, v) ∈ E) b y).
Proof.
  split.
  - induction 1 as [x|x y z Hxy _ IH]; [left; constructor|]. apply elem_of_app in Hxy as [Hxy|Hxy].
    + destruct IH as [IH|[IH1 IH2]]; [left|right; split; [|done]]; by eapply rtc_l.
    + apply elem_of_list_singleton in Hxy as [= -> ->]. right. split; [constructor|]. by destruct IH as [IH|[IH1 IH2]].
  - assert (forall u v, rtc (fun u v => (u, v) ∈ E) u v -> rtc (fun u v => (u, v) ∈ E ++ [(a, b)]) u v) as Hm.
    { intros u v. apply rtc_subrel. intros ? ? ?. apply elem_of_app. by left. }
    intros [H|[H1 H2]]; [by apply Hm|]. transitivity a; [by apply Hm|]. eapply rtc_l; [|by apply Hm]. apply elem_of_app. right. by apply elem_of_list_singleton.
Qed.
Lemma orbit_sets_ok edges : (forall a b, (a, b) ∈ edges -> a ∈ nodes -> b ∈ nodes) ->
  exists d, orbit_sets nodes edges = Ok d /\ full d /\ forall j k, j ∈ nodes -> inrow d j k <-> rtc (fun u v => (u, v) ∈ edges) j k.
Proof.
  intros He. unfold orbit_sets. set (d0 := foldl _ _ _).
  assert (forall x, dget d0 x = if decide (x ∈ nodes) then Some [x] else None) as Hd0.
  { unfold d0. clear. assert (forall d, (forall x s, dget d x = Some s -> s = [x]) -> forall x, dget (foldl (fun d x => dset d x [x]) d nodes) x = if decide (x ∈ nodes) then Some [x] else dget d x) as H.
    - induction nodes as [|y l IH]; intros d Hd x; cbn [foldl]; [by rewrite decide_False by (by apply not_elem_of_nil)|]. rewrite IH.
      + destruct (decide (x ∈ l)); [by rewrite decide_True by (by right)|]. rewrite dget_dset. destruct (decide (x = y)) as [->|]; [by rewrite decide_True by left|].
        rewrite decide_False; [done|]. by intros [?|?]%elem_of_cons.
      + intros z s. rewrite dget_dset. destruct (decide _) as [->|]; [by intros [= <-]|apply Hd].
    - intros x. rewrite H; [done|]. done. }
  assert (forall E2 E1 d, (forall a b, (a, b) ∈ E1 ++ E2 -> a ∈ nodes -> b ∈ nodes) -> full d ->
    (forall j k, j ∈ nodes -> inrow d j k <-> rtc (fun u v => (u, v) ∈ E1) j k) ->
    exists d', rfold (orbit_step nodes) d E2 = Ok d' /\ full d' /\ forall j k, j ∈ nodes -> inrow d' j k <-> rtc (fun u v => (u, v) ∈ E1 ++ E2) j k) as H.
  { induction E2 as [|[a b] E2 IH]; intros E1 d H2 Hf Hr; [exists d; rewrite app_nil_r; done|].
    assert (exists d1, orbit_step nodes d (a, b) = Ok d1 /\ full d1 /\ forall j k, j ∈ nodes -> inrow d1 j k <-> rtc (fun u v => (u, v) ∈ E1 ++ [(a, b)]) j k) as (d1 & E & Hf1 & Hr1).
    { destruct (decide (a ∈ nodes)) as [Ha|Ha].
      - destruct (orbit_step_ok d a b Hf) as (d1 & E & Hf1 & Hr1); [by apply (H2 a b); [set_solver|]|]. exists d1. split; [done|]. split; [done|].
        intros j k Hj. rewrite Hr1, rtc_add, !Hr; [done|apply (H2 a b); [set_solver|done]|done..].
      - assert (forall j, j ∈ nodes -> ~ rtc (fun u v => (u, v) ∈ E1) j a) as Hno.
        { intros j Hj Hrt. apply Ha. assert (forall u v, (u, v) ∈ E1 -> u ∈ nodes -> v ∈ nodes) as H3. { intros u v Huv. apply H2. set_solver. }
          clear -Hrt Hj H3. induction Hrt as [|x y z Hxy _ IHr]; [done|]. apply IHr. by apply (H3 x y). }
        exists d. split; [apply orbit_step_skip; [done|]; intros j Hj; rewrite Hr by done; by apply Hno|]. split; [done|].
        intros j k Hj. rewrite rtc_add, Hr by done. specialize (Hno j Hj). tauto. }
    cbn [rfold]. rewrite E. destruct (IH (E1 ++ [(a, b)]) d1) as (d' & E' & Hf' & Hr'); [|done|done|].
    - intros u v Huv. apply H2. by rewrite <- app_assoc in Huv.
    - exists d'. rewrite <- app_assoc in Hr'. done. }
  destruct (H edges [] d0 He) as (d & E & Hf & Hr).
  - intros j Hj. rewrite Hd0, decide_True by done. done.
  - intros j k Hj. unfold inrow. rewrite Hd0, decide_True by done. split.
    + intros (? & [= <-] & ->%elem_of_list_singleton). constructor.
    + intros Hrt. inversion Hrt as [|? ? ? Hxy]; subst; [exists [k]; split; [done|left]|by apply elem_of_nil in Hxy].
  - exists d. done.
Qed.

(** Permutations: what can be reached can reach back. *)
Lemma closed_back (fs : list (V -> V)) (T : list V) f x : (forall y, y ∈ T -> f y ∈ T) -> NoDup T -> (forall y z, y ∈ nodes -> z ∈ nodes -> f y = f z -> y = z) ->
  (forall y, y ∈ T -> y ∈ nodes) -> x ∈ nodes -> f x ∈ T -> x ∈ T.
Proof.
  intros Hcl Hn Hinj Hsub Hx Hfx. assert (f <$> T ≡ₚ T) as Hp.
  { apply submseteq_Permutation_length_le; [rewrite fmap_length; lia|]. apply NoDup_submseteq.
    - apply NoDup_fmap_2_strong; [|done]. intros a b Ha Hb. apply Hinj; auto.
    - intros a (b & -> & Hb)%elem_of_list_fmap. by apply Hcl. }
  rewrite <- Hp in Hfx. apply elem_of_list_fmap in Hfx as (z & E & Hz). assert (x = z) as ->; [|done]. apply Hinj; auto.
Qed.
Lemma moved_iff (fs : list (V -> V)) (edges : list (V * V)) : (forall f x, f ∈ fs -> f x ∈ nodes <-> x ∈ nodes) ->
  (forall f x y, f ∈ fs -> x ∈ nodes -> y ∈ nodes -> f x = f y -> x = y) ->
  (forall a b, (a, b) ∈ edges -> a ∈ nodes -> exists f, f ∈ fs /\ b = f a) -> (forall f a, f ∈ fs -> a ∈ nodes -> f a = a \/ (a, f a) ∈ edges) ->
  forall x y, x ∈ nodes -> rtc (fun u v => (u, v) ∈ edges) x y <-> moved fs x y.
Proof.
  intros Hin Hinj He Hf x y Hx.
  assert (forall a b, (a, b) ∈ edges -> a ∈ nodes -> b ∈ nodes) as He'. { intros a b Hab Ha. destruct (He a b Hab Ha) as (f & Hff & ->). by apply Hin. }
  assert (forall f a, f ∈ fs -> a ∈ nodes -> rtc (fun u v => (u, v) ∈ edges) a (f a)) as Hstep.
  { intros f a Hff Ha. destruct (Hf f a Hff Ha) as [->|H]; [constructor|]. by apply rtc_once. }
  destruct (orbit_sets_ok edges He') as (d & _ & Hfull & Hrow). split.
  - intros Hrt. induction Hrt as [x|x z y Hxz _ IH]; [constructor|]. eapply rtc_l; [|apply IH; by apply (He' x z)]. left. by apply He.
  - intros Hm. assert (y ∈ nodes /\ rtc (fun u v => (u, v) ∈ edges) x y) as [_ ?]; [|done].
    revert Hx. induction Hm as [x|x z y Hxz _ IH]; intros Hx; [split; [done|constructor]|].
    assert (z ∈ nodes /\ rtc (fun u v => (u, v) ∈ edges) x z) as [Hz Hxz'].
    { destruct Hxz as [(f & Hff & ->)|(f & Hff & ->)]; [split; [by apply Hin|by apply Hstep]|].
      assert (z ∈ nodes) as Hz by (by apply (Hin f)). split; [done|].
      destruct (Hfull (f z) Hx) as [T ET]. assert (forall k, k ∈ T <-> rtc (fun u v => (u, v) ∈ edges) (f z) k) as HT.
      { intros k. rewrite <- Hrow by done. unfold inrow. rewrite ET. naive_solver. }
      assert (forall k, k ∈ T -> k ∈ nodes) as HTn.
      { intros k Hk%HT. revert Hx. generalize (f z) as c, Hk. intros c Hc. clear -Hc He'. induction Hc as [|a b c Hab _ IHc]; [done|]. intros Ha. apply IHc. by apply (He' a b). }
      apply HT. rewrite <- elem_of_remove_dups. apply (closed_back fs (remove_dups T) f z).
      - intros k Hk. rewrite elem_of_remove_dups in Hk. rewrite elem_of_remove_dups. apply HT. transitivity k; [exact (proj1 (HT k) Hk)|]. apply Hstep; [done|by apply HTn].
      - apply NoDup_remove_dups.
      - intros a b. by apply Hinj.
      - intros k Hk. rewrite elem_of_remove_dups in Hk. by apply HTn.
      - done.
      - rewrite elem_of_remove_dups. apply HT. constructor. }
    destruct (IH Hz) as [Hy IH']. split; [done|]. by transitivity z.
Qed.
Lemma each_ok {W} (f : list V -> res W) (h : V -> W) d : full d -> (forall x s, x ∈ nodes -> dget d x = Some s -> f s = Ok (h x)) ->
  each f nodes d = Ok ((fun x => (x, h x)) <$> nodes).
Proof.
  intros Hfull Hh. unfold each.
  assert (forall l pre, nodes = pre ++ l -> rfold (fun d0 x => match dget d x with None => Err KeyError | Some s => let? m := f s in Ok (dset d0 x m) end) ((fun x => (x, h x)) <$> pre) l = Ok ((fun x => (x, h x)) <$> nodes)) as H.
  { induction l as [|x l IH]; intros pre En; [rewrite app_nil_r in En; by subst|]. cbn [rfold].
    assert (x ∈ nodes) as Hx by (rewrite En; set_solver). destruct (Hfull x Hx) as [s Es]. rewrite Es, (Hh x s) by done. cbn [rbind].
    replace (dset ((fun x => (x, h x)) <$> pre) x (h x)) with ((fun x => (x, h x)) <$> (pre ++ [x])).
    - apply IH. by rewrite <- app_assoc.
    - assert (x ∉ pre) as Hxp. { intros Hin. rewrite En in Hnd. apply NoDup_app in Hnd as (_ & Hd & _). apply (Hd x Hin). by left. }
      rewrite fmap_app. clear -Hxp. induction pre as [|y pre IH]; [done|]. cbn. rewrite decide_False by set_solver. f_equal. apply IH. set_solver. }
  by apply (H nodes []).
Qed.
End orbits.

Lemma py_min_ok l : l <> [] -> (forall x y, x ∈ l -> y ∈ l -> is_int x = is_int y) -> exists m, py_min l = Ok m /\ m ∈ l /\ forall y, y ∈ l -> name_le m y.
Proof.
  destruct l as [|x l]; [done|]. intros _ Hk. unfold py_min.
  destruct (existsb is_int (x :: l) && existsb _ (x :: l)) eqn:Ek.
  { exfalso. apply andb_true_iff in Ek as [(a & Ha & Ia)%existsb_exists (b & Hb & Ib)%existsb_exists]. apply elem_of_list_In in Ha, Hb.
    specialize (Hk a b Ha Hb). rewrite Ia in Hk. rewrite <- Hk in Ib. done. }
  eexists. split; [done|]. clear Hk Ek. revert x. induction l as [|y l IH]; intros x; cbn [foldl].
  - split; [left|]. intros y ->%elem_of_list_singleton. destruct (name_leb_total x x); done.
  - destruct (name_leb x y) eqn:E.
    + destruct (IH x) as [H1 H2]. split; [set_solver|]. intros z [->|[->|Hz]%elem_of_cons]%elem_of_cons; [apply H2; left| |apply H2; by right].
      eapply name_le_trans; [apply H2; left|done].
    + destruct (IH y) as [H1 H2]. split; [set_solver|]. intros z [->|[->|Hz]%elem_of_cons]%elem_of_cons; [|apply H2; left|apply H2; by right].
      eapply name_le_trans; [apply H2; left|]. destruct (name_leb_total x y) as [?|?]; [congruence|done].
Qed.
Lemma py_min_mixed l x y : x ∈ l -> y ∈ l -> is_int x <> is_int y -> py_min l = Err TypeError.
Proof.
  intros Hx Hy Hk. destruct l as [|z l]; [by apply elem_of_nil in Hx|]. unfold py_min. set (L := z :: l) in *.
  assert (existsb is_int L = true) as ->. { apply existsb_exists. destruct (is_int x) eqn:E; [exists x|exists y; destruct (is_int y) eqn:E']; rewrite <- elem_of_list_In; try done. }
  assert (existsb (fun x => negb (is_int x)) L = true) as ->; [|done].
  apply existsb_exists. destruct (is_int x) eqn:E; [exists y; destruct (is_int y) eqn:E'|exists x; rewrite E]; rewrite <- elem_of_list_In; done.
Qed.

Lemma permutes_facts {V} `{EqDecision V} (nodes : list V) (g : dict V V) : permutes nodes g ->
  (forall x, gapply g x ∈ nodes <-> x ∈ nodes) /\ (forall x y, gapply g x = gapply g y -> x = y) /\
  (forall a b, (a, b) ∈ g -> a ∈ nodes /\ b = gapply g a) /\ (forall a, gapply g a = a \/ (a, gapply g a) ∈ g).
Proof.
  intros (Hk & Hin & Hp).
  assert (forall x, x ∈ dkeys g -> gapply g x ∈ dkeys g) as Hkk.
  { intros x Hx. unfold gapply. apply elem_of_dkeys in Hx as [y E]. rewrite E. cbn. unfold dkeys. rewrite <- Hp. apply elem_of_list_fmap. exists (x, y). split; [done|]. by apply dget_elem_of. }
  assert (forall x, x ∉ dkeys g -> gapply g x = x) as Hkn. { intros x Hx. unfold gapply. apply dget_None in Hx as ->. done. }
  assert (NoDup (g.*2)) as Hn2 by (rewrite Hp; done).
  split; [|split; [|split]].
  - intros x. destruct (decide (x ∈ dkeys g)) as [Hx|Hx]; [|by rewrite Hkn]. split; intros _; auto.
  - intros x y E. destruct (decide (x ∈ dkeys g)) as [Hx|Hx], (decide (y ∈ dkeys g)) as [Hy|Hy].
    + unfold gapply in E. apply elem_of_dkeys in Hx as [x' Ex]. apply elem_of_dkeys in Hy as [y' Ey]. rewrite Ex, Ey in E. cbn in E. subst y'.
      apply dget_elem_of in Ex, Ey; [|done|done]. apply elem_of_list_lookup in Ex as [i Ei]. apply elem_of_list_lookup in Ey as [j Ej].
      assert (i = j) as ->; [|congruence]. eapply NoDup_lookup; [exact Hn2|by rewrite list_lookup_fmap, Ei|by rewrite list_lookup_fmap, Ej].
    + rewrite (Hkn y) in E by done. exfalso. apply Hy. rewrite <- E. auto.
    + rewrite (Hkn x) in E by done. exfalso. apply Hx. rewrite E. auto.
    + by rewrite !Hkn in E.
  - intros a b Hab. assert (dget g a = Some b) as E by by apply dget_elem_of. split; [apply Hin; by apply dget_Some_key in E|]. unfold gapply. by rewrite E.
  - intros a. unfold gapply. destruct (dget g a) as [b|] eqn:E; [right|by left]. by apply dget_elem_of.
Qed.
Lemma elem_of_concat {V} (ls : list (list V)) x : x ∈ concat ls <-> exists l, x ∈ l /\ l ∈ ls.
Proof. rewrite elem_of_list_In, in_concat. setoid_rewrite elem_of_list_In. naive_solver. Qed.
Lemma node_orbits_sets {V} `{EqDecision V} (nodes : list V) (gens : list (dict V V)) : NoDup nodes -> Forall (permutes nodes) gens ->
  exists d, orbit_sets nodes (concat gens) = Ok d /\ full nodes d /\ forall j k, j ∈ nodes -> inrow d j k <-> moved (gapply <$> gens) j k.
Proof.
  intros Hnd Hg. rewrite Forall_forall in Hg.
  destruct (orbit_sets_ok nodes Hnd (concat gens)) as (d & E & Hf & Hr).
  - intros a b (g & Hg' & Hab)%elem_of_concat. destruct (permutes_facts nodes g (Hg g Hab)) as (H1 & H2 & H3 & H4). destruct (H3 a b Hg') as [Ha ->]. intros _. by apply H1.
  - exists d. split; [done|]. split; [done|]. intros j k Hj. rewrite Hr by done. apply (moved_iff nodes Hnd (gapply <$> gens)); [| | | |done].
    + intros f x (g & -> & Hg')%elem_of_list_fmap. by destruct (permutes_facts nodes g (Hg g Hg')).
    + intros f x y (g & -> & Hg')%elem_of_list_fmap _ _. destruct (permutes_facts nodes g (Hg g Hg')) as (_ & H & _). apply H.
    + intros a b (g & Hab & Hg')%elem_of_concat. destruct (permutes_facts nodes g (Hg g Hg')) as (_ & _ & H & _). destruct (H a b Hab) as [_ ->]. intros _.
      exists (gapply g). split; [|done]. apply elem_of_list_fmap. by exists g.
    + intros f a (g & -> & Hg')%elem_of_list_fmap _. destruct (permutes_facts nodes g (Hg g Hg')) as (_ & _ & _ & H). destruct (H a) as [?|?]; [by left|right].
      apply elem_of_concat. by exists g.
Qed.
Lemma moved_sym {V} (fs : list (V -> V)) x y : moved fs x y -> moved fs y x.
Proof. apply rtsc_equivalence. Qed.
Lemma moved_trans {V} (fs : list (V -> V)) x y z : moved fs x y -> moved fs y z -> moved fs x z.
Proof. apply rtsc_equivalence. Qed.

Lemma moved_in {V} `{EqDecision V} (nodes : list V) (gens : list (dict V V)) x y : Forall (permutes nodes) gens -> moved (gapply <$> gens) x y -> x ∈ nodes -> y ∈ nodes.
Proof.
  intros Hg. rewrite Forall_forall in Hg. unfold moved, rtsc. induction 1 as [|a b c Hab _ IH]; [done|]. intros Ha. apply IH. clear IH.
  assert (forall f z, f ∈ gapply <$> gens -> f z ∈ nodes <-> z ∈ nodes) as Hf. { intros f z (g & -> & Hg')%elem_of_list_fmap. by apply (permutes_facts nodes g (Hg g Hg')). }
  destruct Hab as [(f & Hff & ->)|(f & Hff & ->)]; [by apply Hf|]. by apply (Hf f b Hff).
Qed.

(** ** orbits of node-layers *)
Lemma pair_leb_total a b : pair_leb a b = true \/ pair_leb b a = true.
Proof.
  unfold pair_leb. destruct (decide (a.1 = b.1)) as [E|E]; [rewrite decide_True by done|rewrite decide_False by congruence]; apply name_leb_total.
Qed.
Lemma pair_leb_antisym a b : pair_leb a b = true -> pair_leb b a = true -> a = b.
Proof.
  unfold pair_leb. destruct (decide (a.1 = b.1)) as [E|E]; [rewrite decide_True by done|rewrite decide_False by congruence]; intros H1 H2.
  - destruct a, b; cbn in *. f_equal; [done|]. by apply name_leb_antisym.
  - exfalso. by apply E, name_leb_antisym.
Qed.
Lemma pair_leb_trans a b c : pair_leb a b = true -> pair_leb b c = true -> pair_leb a c = true.
Proof.
  unfold pair_leb. destruct a as [a1 a2], b as [b1 b2], c as [c1 c2]. cbn. destruct (decide (a1 = b1)) as [->|E1].
  - destruct (decide (b1 = c1)); [|done]. intros. by apply (name_le_trans a2 b2 c2).
  - destruct (decide (b1 = c1)) as [->|E2]; [by rewrite decide_False|]. intros H1 H2. destruct (decide (a1 = c1)) as [->|]; [|by apply (name_le_trans a1 b1 c1)].
    exfalso. by apply E1, name_leb_antisym.
Qed.
Lemma py_min2_ok l : l <> [] -> (forall x y, x ∈ l -> y ∈ l -> is_int (x.1) = is_int (y.1) /\ is_int (x.2) = is_int (y.2)) ->
  exists m, py_min2 l = Ok m /\ m ∈ l /\ forall y, y ∈ l -> pair_leb m y = true.
Proof.
  destruct l as [|x l]; [done|]. intros _ Hk. unfold py_min2. revert x Hk. induction l as [|y l IH]; intros x Hk; cbn [rfold].
  - exists x. split; [done|]. split; [left|]. intros y ->%elem_of_list_singleton. destruct (pair_leb_total x x); done.
  - assert (pair_cmp x y = true) as ->. { unfold pair_cmp. destruct (Hk x y) as [H1 H2]; [left|right; left|]. destruct (decide _); by apply bool_decide_eq_true. }
    destruct (pair_leb x y) eqn:E.
    + destruct (IH x) as (m & Em & H1 & H2). { intros a b Ha Hb. apply Hk; set_solver. }
      exists m. split; [done|]. split; [set_solver|]. intros z [->|[->|Hz]%elem_of_cons]%elem_of_cons; [apply H2; left| |apply H2; by right].
      eapply pair_leb_trans; [apply H2; left|done].
    + destruct (IH y) as (m & Em & H1 & H2). { intros a b Ha Hb. apply Hk; set_solver. }
      exists m. split; [done|]. split; [set_solver|]. intros z [->|[->|Hz]%elem_of_cons]%elem_of_cons; [|apply H2; left|apply H2; by right].
      eapply pair_leb_trans; [apply H2; left|]. destruct (pair_leb_total x y) as [?|?]; [congruence|done].
Qed.
Lemma nl_image nls g x : NoDup nls -> nl_permutes nls g -> pair_apply g x ∈ nls <-> x ∈ nls.
Proof.
  intros Hnd (P1 & P2 & Hk & Him). split; [|apply Him]. intros Hx.
  assert (forall a b, pair_apply g a = pair_apply g b -> a = b) as Hinj.
  { intros a b Hab. unfold pair_apply in Hab. injection Hab as Ha Hb. destruct (permutes_facts _ _ P1) as (_ & I1 & _). destruct (permutes_facts _ _ P2) as (_ & I2 & _).
    destruct a, b; cbn in *. f_equal; auto. }
  assert (pair_apply g <$> nls ≡ₚ nls) as Hp.
  { apply submseteq_Permutation_length_le; [rewrite fmap_length; lia|]. apply NoDup_submseteq; [by apply NoDup_fmap_2_strong; [intros; auto|]|].
    intros a (b & -> & Hb)%elem_of_list_fmap. by apply Him. }
  rewrite <- Hp in Hx. apply elem_of_list_fmap in Hx as (z & E' & Hz). apply Hinj in E' as ->. done.
Qed.
Lemma nl_moved_in nls gens x y : NoDup nls -> Forall (nl_permutes nls) gens -> moved (pair_apply <$> gens) x y -> x ∈ nls -> y ∈ nls.
Proof.
  intros Hnd Hg. rewrite Forall_forall in Hg. unfold moved, rtsc. induction 1 as [|a b c Hab _ IH]; [done|]. intros Ha. apply IH. clear IH.
  assert (forall f z, f ∈ pair_apply <$> gens -> f z ∈ nls <-> z ∈ nls) as Hf. { intros f z (g & -> & Hg')%elem_of_list_fmap. apply nl_image; [done|by apply Hg]. }
  destruct Hab as [(f & Hff & ->)|(f & Hff & ->)]; [by apply Hf|]. by apply (Hf f b Hff).
Qed.
Lemma nl_orbits_sets nls gens : NoDup nls -> Forall (nl_permutes nls) gens ->
  exists d, orbit_sets nls (gens ≫= nl_edges) = Ok d /\ full nls d /\ forall j k, j ∈ nls -> inrow d j k <-> moved (pair_apply <$> gens) j k.
Proof.
  intros Hnd Hg. rewrite Forall_forall in Hg.
  assert (forall g a b, g ∈ gens -> (a, b) ∈ nl_edges g -> b = pair_apply g a) as Hed.
  { intros g a b Hg' Hab. destruct (Hg g Hg') as ((K1 & _ & _) & (K2 & _ & _) & _ & _). unfold nl_edges in Hab. apply elem_of_list_bind in Hab as ([kn vn] & Hin & Hn).
    apply elem_of_list_fmap in Hin as ([kl vl] & E & Hl). cbn in E. injection E as -> ->. apply dget_elem_of in Hn, Hl; [|done|done]. unfold pair_apply, gapply. cbn. by rewrite Hn, Hl. }
  destruct (orbit_sets_ok nls Hnd (gens ≫= nl_edges)) as (d & E & Hf & Hr).
  - intros a b (g & Hab & Hg')%elem_of_list_bind Ha. rewrite (Hed g a b) by done. by apply (Hg g Hg').
  - exists d. split; [done|]. split; [done|]. intros j k Hj. rewrite Hr by done. apply (moved_iff nls Hnd (pair_apply <$> gens)); [| | | |done].
    + intros f x (g & -> & Hg')%elem_of_list_fmap. apply nl_image; [done|]. by apply Hg.
    + intros f x y (g & -> & Hg')%elem_of_list_fmap _ _ Hab. destruct (Hg g Hg') as (P1 & P2 & _). unfold pair_apply in Hab. injection Hab as Ha Hb.
      destruct (permutes_facts _ _ P1) as (_ & I1 & _). destruct (permutes_facts _ _ P2) as (_ & I2 & _). destruct x, y; cbn in *. f_equal; auto.
    + intros a b (g & Hab & Hg')%elem_of_list_bind _. exists (pair_apply g). split; [apply elem_of_list_fmap; by exists g|]. by apply Hed.
    + intros f a (g & -> & Hg')%elem_of_list_fmap Ha. right. destruct (Hg g Hg') as (P1 & P2 & Hk & Him). destruct (Hk a Ha) as [K1 K2]. apply elem_of_list_bind. exists g. split; [|done].
      apply elem_of_dkeys in K1 as [v1 E1]. apply elem_of_dkeys in K2 as [v2 E2]. destruct P1 as [N1 _], P2 as [N2 _]. unfold nl_edges. apply elem_of_list_bind.
      exists (a.1, v1). split; [|by apply dget_elem_of]. apply elem_of_list_fmap. exists (a.2, v2). split; [|by apply dget_elem_of]. unfold pair_apply, gapply. cbn. rewrite E1, E2. cbn. by destruct a.
Qed.

(** ** from rows to least elements *)
Section least.
Context {V : Type} `{EqDecision V} (le : V -> V -> Prop) (f : list V -> res V) (R : V -> V -> Prop).
Hypothesis le_antisym : forall x y, le x y -> le y x -> x = y.
Hypothesis R_refl : forall x, R x x.
Hypothesis R_sym : forall x y, R x y -> R y x.
Hypothesis R_trans : forall x y z, R x y -> R y z -> R x z.
Lemma each_least nodes d : NoDup nodes -> full nodes d -> (forall j k, j ∈ nodes -> inrow d j k <-> R j k) ->
  (forall s x, x ∈ nodes -> (forall y, y ∈ s <-> R x y) -> exists m, f s = Ok m /\ m ∈ s /\ forall y, y ∈ s -> le m y) ->
  exists o, each f nodes d = Ok o /\ dkeys o = nodes /\
    (forall x, x ∈ nodes -> exists m, dget o x = Some m /\ R x m /\ forall y, R x y -> le m y) /\
    (forall x y, x ∈ nodes -> y ∈ nodes -> dget o x = dget o y <-> R x y).
Proof.
  intros Hnd Hf Hr Hm.
  pose (h := fun x => match dget d x with Some s => match f s with Ok m => m | _ => x end | None => x end).
  assert (forall x s, x ∈ nodes -> dget d x = Some s -> f s = Ok (h x) /\ R x (h x) /\ forall y, R x y -> le (h x) y) as Hh.
  { intros x s Hx Es. assert (forall y, y ∈ s <-> R x y) as Hs. { intros y. rewrite <- Hr by done. split; [by exists s|]. intros (s' & E & ?). congruence. }
    destruct (Hm s x Hx Hs) as (m & E & Hin & Hle). unfold h. rewrite Es, E. split; [done|]. split; [by apply Hs|]. intros y Hy. apply Hle. by apply Hs. }
  exists ((fun x => (x, h x)) <$> nodes). rewrite (each_ok nodes Hnd f h d Hf) by (intros; by apply Hh). split; [done|].
  assert (forall x, x ∈ nodes -> dget ((fun x => (x, h x)) <$> nodes) x = Some (h x)) as Hg.
  { intros x Hx. apply dget_elem_of; [|apply elem_of_list_fmap; by exists x]. unfold dkeys. rewrite <- list_fmap_compose. cbn. by rewrite list_fmap_id. }
  assert (forall x, x ∈ nodes -> R x (h x) /\ forall y, R x y -> le (h x) y) as Hh'.
  { intros x Hx. destruct (Hf x Hx) as [s Es]. by apply (Hh x s). }
  split; [unfold dkeys; rewrite <- list_fmap_compose; by rewrite list_fmap_id|]. split.
  - intros x Hx. exists (h x). split; [by apply Hg|]. by apply Hh'.
  - intros x y Hx Hy. rewrite !Hg by done. destruct (Hh' x Hx) as [R1 L1], (Hh' y Hy) as [R2 L2]. split.
    + intros [= E]. apply (R_trans x (h x)); [done|]. rewrite E. by apply R_sym.
    + intros Hxy. f_equal. apply le_antisym; [apply L1|apply L2].
      * by apply (R_trans x y).
      * apply (R_trans y x); [by apply R_sym|done].
Qed.
Lemma each_fails nodes d e : full nodes d -> (forall x s, x ∈ nodes -> dget d x = Some s -> (exists m, f s = Ok m) \/ f s = Err e) ->
  (exists x s, x ∈ nodes /\ dget d x = Some s /\ f s = Err e) -> each f nodes d = Err e.
Proof.
  intros Hf Hs (x & s & Hx & Es & Ee). unfold each. generalize (@nil (V * V)) as acc. revert Hf Hs x s Hx Es Ee. generalize nodes as l.
  induction l as [|z l IH]; intros Hf Hs x s Hx Es Ee acc; [by apply elem_of_nil in Hx|]. cbn [rfold].
  destruct (Hf z) as [t Et]; [by left|]. rewrite Et. destruct (Hs z t) as [[m Em]|Em]; [by left|done| |by rewrite Em]. rewrite Em. cbn [rbind].
  apply elem_of_cons in Hx as [->|Hx]; [congruence|]. apply (IH) with x s; try done.
  - intros j Hj. apply Hf. by right.
  - intros j u Hj. apply Hs. by right.
Qed.
End least.

(** ** the orbits of all graphlets *)
Lemma dget_foldl_dset {K K' V} `{EqDecision K, EqDecision K'} (g : K -> K') (o : dict K V) : (forall x y, g x = g y -> x = y) -> NoDup (dkeys o) ->
  forall (d : dict K' V) k, dget (foldl (fun d (xm : K * V) => dset d (g (xm.1)) (xm.2)) d o) k =
    match list_find (fun xm : K * V => g (xm.1) = k) o with Some (_, xm) => Some (xm.2) | None => dget d k end.
Proof.
  intros Hg. induction o as [|[x m] o IH]; intros Hnd d k; [done|]. cbn [foldl fst snd]. cbn in Hnd. apply NoDup_cons in Hnd as [Hx Hnd]. rewrite IH by done. cbn [list_find].
  destruct (decide (g x = k)) as [E|E].
  - rewrite decide_True by done. destruct (list_find _ o) as [[i [y m']]|] eqn:Ef; cbn.
    + apply list_find_Some in Ef as (Hi & Ek & _). cbn in Ek. exfalso. apply Hx. rewrite <- E in Ek. apply Hg in Ek as ->. apply elem_of_list_lookup_2 in Hi. apply elem_of_list_fmap. by exists (x, m').
    + rewrite <- E. by rewrite dget_dset_eq.
  - rewrite decide_False by done. destruct (list_find _ o) as [[i [y m']]|]; cbn; [done|]. by rewrite dget_dset_ne.
Qed.
Lemma dget_foldl_dset_in {K K' V} `{EqDecision K, EqDecision K'} (g : K -> K') (o : dict K V) : (forall x y, g x = g y -> x = y) -> NoDup (dkeys o) ->
  forall (d : dict K' V), (forall x, dget (foldl (fun d (xm : K * V) => dset d (g (xm.1)) (xm.2)) d o) (g x) = match dget o x with Some m => Some m | None => dget d (g x) end) /\
    (forall k, (forall x, k <> g x) -> dget (foldl (fun d (xm : K * V) => dset d (g (xm.1)) (xm.2)) d o) k = dget d k).
Proof.
  intros Hg Hnd d. split.
  - intros x. rewrite dget_foldl_dset by done. destruct (list_find _ o) as [[i [y m]]|] eqn:Ef.
    + apply list_find_Some in Ef as (Hi & Ek & _). cbn in Ek. apply Hg in Ek as ->. apply elem_of_list_lookup_2 in Hi. apply dget_elem_of in Hi; [|done]. by rewrite Hi.
    + apply list_find_None in Ef. destruct (dget o x) as [m|] eqn:E; [|done]. apply dget_elem_of in E; [|done]. rewrite Forall_forall in Ef. by destruct (Ef _ E).
  - intros k Hk. rewrite dget_foldl_dset by done. destruct (list_find _ o) as [[i [y m]]|] eqn:Ef; [|done].
    apply list_find_Some in Ef as (Hi & Ek & _). cbn in Ek. by destruct (Hk y).
Qed.
Lemma all_orbits_ok (nets : dict nat (list (list name * list (dict name name)))) : NoDup (dkeys nets) ->
  (forall k l i net, dget nets k = Some l -> l !! i = Some net -> exists o, node_orbits (net.1) (net.2) = Ok o /\ NoDup (dkeys o)) ->
  exists d, all_orbits nets = Ok d /\
    forall k i x m, dget d (k, i, x) = Some m <-> exists l net o, dget nets k = Some l /\ l !! i = Some net /\ node_orbits (net.1) (net.2) = Ok o /\ dget o x = Some m.
Proof.
  intros Hnd Hok.
  pose (flat := nets ≫= (fun kv => (fun inet : nat * _ => (kv.1, inet.1, inet.2)) <$> imap pair (kv.2)) : list (nat * nat * (list name * list (dict name name)))).
  pose (step := fun (d : dict orbit name) (e : nat * nat * (list name * list (dict name name))) =>
     let? o := node_orbits (e.2.1) (e.2.2) in Ok (foldl (fun d xm => dset d (e.1.1, e.1.2, xm.1) (xm.2)) d o)).
  assert (all_orbits nets = rfold step [] flat) as ->.
  { unfold all_orbits, flat. rewrite <- rfold_bind. apply rfold_ext'. intros s x. rewrite rfold_fmap. done. }
  assert (forall k i net, (k, i, net) ∈ flat <-> exists l, dget nets k = Some l /\ l !! i = Some net) as Hin.
  { intros k i net. unfold flat. rewrite elem_of_list_bind. split.
    - intros ([k' l] & (inet & E & Hi)%elem_of_list_fmap & Hk). cbn in *. apply elem_of_lookup_imap in Hi as (j & y & -> & Hj). cbn in E. injection E as -> -> ->. exists l. split; [|done]. by apply dget_elem_of.
    - intros (l & Hk & Hl). exists (k, l). split; [|by apply dget_elem_of]. apply elem_of_list_fmap. exists (i, net). split; [done|]. cbn. apply elem_of_lookup_imap. by exists i, net. }
  assert (NoDup (flat.*1)) as Hfl.
  { unfold flat. clear -Hnd. induction nets as [|[k l] nets IH]; [by apply NoDup_nil|]. cbn in Hnd. apply NoDup_cons in Hnd as [Hk Hnd]. cbn. rewrite fmap_app. apply NoDup_app. split_and!.
    - rewrite <- list_fmap_compose. replace ((fst ∘ _) <$> imap pair l) with ((fun i => (k, i)) <$> seq 0 (length l)); [apply NoDup_fmap_2; [intros ? ? [= ->]; done|apply NoDup_seq]|].
      apply list_eq. intros i. rewrite !list_lookup_fmap, list_lookup_imap. destruct (l !! i) as [y|] eqn:E.
      + assert (i < length l) by (by eapply lookup_lt_Some). rewrite lookup_seq_lt by done. done.
      + rewrite lookup_seq_ge; [done|]. by apply lookup_ge_None.
    - intros [k' i] H1 H2. apply elem_of_list_fmap in H1 as (e & E & He). apply elem_of_list_fmap in He as (inet & -> & _). cbn in E. injection E as -> ->.
      apply elem_of_list_fmap in H2 as (e & E & He). apply elem_of_list_bind in He as ([k2 l2] & H3 & H4). apply elem_of_list_fmap in H3 as (j2 & -> & _). cbn in E. injection E as -> _. apply Hk. apply elem_of_list_fmap. by exists (k2, l2).
    - by apply IH. }
  assert (forall f (d : dict orbit name), NoDup (f.*1) -> (forall e, e ∈ f -> exists o, node_orbits (e.2.1) (e.2.2) = Ok o /\ NoDup (dkeys o)) ->
     (forall e x, e ∈ f -> dget d (e.1.1, e.1.2, x) = None) ->
     exists d', rfold step d f = Ok d' /\ forall k i x m, dget d' (k, i, x) = Some m <-> dget d (k, i, x) = Some m \/ exists net o, (k, i, net) ∈ f /\ node_orbits (net.1) (net.2) = Ok o /\ dget o x = Some m) as H.
  { clear. induction f as [|[[k i] net] f IH]; intros d Hnd Hf Hd.
    { exists d. split; [done|]. intros k i x m. split; [by left|]. intros [?|(? & ? & Hn & _)]; [done|]. by apply elem_of_nil in Hn. }
    cbn in Hnd. apply NoDup_cons in Hnd as [Hk Hnd]. destruct (Hf (k, i, net)) as (o & Eo & Hno); [left|]. cbn in Eo. cbn [rfold]. unfold step at 1. cbn [fst snd]. rewrite Eo. cbn [rbind].
    pose proof (dget_foldl_dset_in (fun x : name => (k, i, x)) o ltac:(by intros ? ? [= ->]) Hno d) as [G1 G2].
    set (d1 := foldl _ d o) in *. destruct (IH d1 Hnd) as (d' & E' & H').
    - intros e He. apply Hf. by right.
    - intros [[k2 i2] net2] x He. cbn. rewrite G2; [apply (Hd (k2, i2, net2)); by right|]. intros y [= -> -> ->]. apply Hk. apply elem_of_list_fmap. by exists (k, i, net2).
    - exists d'. split; [done|]. intros k2 i2 x m. rewrite H'. destruct (decide ((k2, i2) = (k, i))) as [[= -> ->]|Hne].
      + rewrite G1. assert (dget d (k, i, x) = None) as Hnone by (apply (Hd (k, i, net)); left). rewrite Hnone. split.
        * intros [Hm|(net' & o' & Hin & ?)]; [|right; exists net', o'; split; [by right|done]]. destruct (dget o x) eqn:E; [|done]. right. exists net, o. split; [left|]. split; [done|]. congruence.
        * intros [?|(net' & o' & Hin & Eo' & Hm)]; [done|]. apply elem_of_cons in Hin as [[= ->]|Hin].
          -- left. rewrite Eo in Eo'. injection Eo' as <-. by rewrite Hm.
          -- exfalso. apply Hk. apply elem_of_list_fmap. by exists (k, i, net').
      + rewrite G2 by (intros y [= -> -> ->]; done). split.
        * intros [?|(net' & o' & Hin & ?)]; [by left|]. right. exists net', o'. split; [by right|done].
        * intros [?|(net' & o' & Hin & ?)]; [by left|]. apply elem_of_cons in Hin as [[= -> -> ->]|Hin]; [done|]. right. by exists net', o'. }
  destruct (H flat []) as (d & E & Hd); [done| |done|].
  - intros [[k i] net] He. apply Hin in He as (l & Hk & Hl). by apply (Hok k l i net).
  - exists d. split; [done|]. intros k i x m. rewrite Hd. split.
    + intros [?|(net & o & He & Eo & Hm)]; [done|]. apply Hin in He as (l & Hk & Hl). by exists l, net, o.
    + intros (l & net & o & Hk & Hl & Eo & Hm). right. exists net, o. split; [|done]. apply Hin. by exists l.
Qed.
