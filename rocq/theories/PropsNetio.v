(** * C38-C39: reading and writing networks *)
From Verif Require Import Netio NetioSpec PropsNet PropsMpx MpxIter MpxFacts NetioFacts.
Local Open Scope nat_scope.

Lemma ulabels_ok n nm labels rlabels clabels llabels emb lines ll rl cl rows :
  ufile n nm labels rlabels clabels llabels emb lines ll rl cl rows ->
  exists rl0 cl0, ulabels n nm labels rlabels clabels llabels emb = Ok (ll, rl0, cl0) /\
    rl = (if emb then (fun r : string * list field => NStr (r.1)) <$> rows else rl0) /\
    (forall r, r ∈ rows -> length (r.2) = n) /\
    forall S (cell : list name -> list name -> nat -> S -> nat * field -> res S) s,
      udata cell n nm emb cl0 rl0 s lines =
      (let? x := rows_fold (cell cl) emb 0 (if emb then [] else rl0) s rows in if decide (x.1.1 = n * nm) then Ok (cl, x.1.2, x.2) else Err AssertionError).
Proof.
  intros (-> & Hll & Hrl & Hcl & Hrows & Hf).
  assert (forall lines', layout n emb rows lines' -> forall r, r ∈ rows -> length (r.2) = n) as Hlen.
  { intros lines' (gs & rest & HF & _). clear -HF. induction HF as [|r g rows gs (pre & last & l0 & _ & _ & ? & _) HF IH]; [by intros r ?%elem_of_nil|].
    intros r' [->|?]%elem_of_cons; [done|by apply IH]. }
  destruct emb.
  - destruct Hf as (-> & -> & -> & line0 & lines' & -> & -> & Hrl' & Hl). eexists _, _. split; [reflexivity|]. split; [done|]. split; [by eapply Hlen|].
    intros S cell s. unfold udata. cbn [rbind]. rewrite decide_True by done. by rewrite (urows_layout _ _ _ rows lines' Hl).
  - destruct Hf as (Hor & Hrl' & Hcl' & Hl). eexists _, _. split; [|split; [exact Hrl'|split; [by eapply Hlen|]]].
    + unfold ulabels. simpl. rewrite <- Hcl'. assert (bool_decide (is_Some labels) && bool_decide (is_Some rlabels) && bool_decide (is_Some clabels) = false) as ->; [|done].
      destruct Hor as [->|[->| ->]]; [done| |]; simpl; by rewrite ?andb_false_r.
    + intros S cell s. unfold udata. cbn [rbind]. rewrite decide_True by done. by rewrite (urows_layout _ _ _ rows lines Hl).
Qed.
Section fill.
Context (c : coupling).
Lemma pA_has fi h p l : mhist [c] false 0 fi h p -> is_Some (pA p (LBare l)) <-> mhas p 1 l.
Proof.
  intros H%mhist_inv. pose proof (pinv_asp _ _ _ _ _ _ H) as Has. rewrite <- psl_mhas. split.
  - intros [m Hm]. apply pA_lay in Hm as [[_ ?] _]; [done|apply H].
  - intros Hp. destruct (lay_pA p (LBare l) (pi_wf _ _ _ _ _ _ H)) as [m Hm]; [done|done|]. by eexists.
Qed.
Lemma fill_one fi l xs : forall h p, mhist [c] false 0 fi h p -> mhas p 1 l ->
  exists p', rfold (fun p x => out_res (A_add_node p (LBare l) x)) p xs = Ok p' /\
    mhist [c] false 0 fi (h ++ ((fun x => (MAAddNode (LBare l) x, Ok tt)) <$> xs)) p' /\ forall l', mhas p' 1 l' <-> mhas p 1 l'.
Proof.
  induction xs as [|x xs IH]; intros h p Hh Hl; [exists p; rewrite app_nil_r; done|]. cbn [rfold].
  destruct (proj2 (pA_has fi h p l Hh) Hl) as [m Hm]. pose proof (A_add_node_eq p (LBare l) m x (pi_wf _ _ _ _ _ _ (mhist_inv _ _ _ _ _ _ Hh)) Hm) as E.
  assert (mhist [c] false 0 fi (h ++ [(MAAddNode (LBare l) x, Ok tt)]) (padd1 p (LBare l) m x)) as Hh1 by (by eapply mhist_op).
  assert (forall l', mhas (padd1 p (LBare l) m x) 1 l' <-> mhas p 1 l') as Hk.
  { intros l'. rewrite (C51_nodes_layers_exact _ _ _ _ _ _ Hh1 ltac:(simpl; lia)), (C51_nodes_layers_exact _ _ _ _ _ _ Hh ltac:(simpl; lia)).
    setoid_rewrite elem_of_app. setoid_rewrite elem_of_list_singleton. split; [|intros (e & ? & ?); exists e; auto].
    intros (e & [He| ->] & Hm'); [by exists e|]. simpl in Hm'. by destruct Hm' as (_ & ? & _). }
  unfold out_res at 1. rewrite E. cbn [rbind fst snd]. destruct (IH _ _ Hh1 (proj2 (Hk l) Hl)) as (p' & -> & Hh' & Hk').
  exists p'. split; [done|]. split; [by rewrite <- app_assoc in Hh'|]. intros l'. by rewrite Hk', Hk.
Qed.
Lemma fill_ok fi ls xs : forall h p, mhist [c] false 0 fi h p -> (forall l, l ∈ ls -> mhas p 1 l) ->
  exists p', rfold (fun p l => rfold (fun p x => out_res (A_add_node p (LBare l) x)) p xs) p ls = Ok p' /\
    mhist [c] false 0 fi (h ++ (ls ≫= fun l => (fun x => (MAAddNode (LBare l) x, Ok tt)) <$> xs)) p' /\ forall l', mhas p' 1 l' <-> mhas p 1 l'.
Proof.
  induction ls as [|l ls IH]; intros h p Hh Hl; [exists p; rewrite app_nil_r; done|]. cbn [rfold].
  destruct (fill_one fi l xs h p Hh ltac:(apply Hl; left)) as (p1 & -> & Hh1 & Hk1). cbn [rbind].
  destruct (IH _ _ Hh1) as (p2 & -> & Hh2 & Hk2). { intros l' Hl'. apply Hk1, Hl. by right. }
  exists p2. split; [done|]. split; [by rewrite <- app_assoc in Hh2|]. intros l'. by rewrite Hk2, Hk1.
Qed.
Lemma fill_err fi ls xs l0 : forall h p, mhist [c] false 0 fi h p -> l0 ∈ ls -> ~ mhas p 1 l0 -> xs <> [] ->
  rfold (fun p l => rfold (fun p x => out_res (A_add_node p (LBare l) x)) p xs) p ls = Err KeyError.
Proof.
  induction ls as [|l ls IH]; intros h p Hh Hl Hn Hx; [by apply elem_of_nil in Hl|]. cbn [rfold].
  destruct (pA p (LBare l)) as [m|] eqn:Hm.
  - assert (mhas p 1 l) as Hl1 by (eapply pA_has; [done|by eexists]). destruct (fill_one fi l xs h p Hh Hl1) as (p1 & -> & Hh1 & Hk1). cbn [rbind].
    apply elem_of_cons in Hl as [->|Hl]; [done|]. eapply IH; [exact Hh1|done|by rewrite Hk1|done].
  - destruct xs as [|x xs]; [done|]. cbn [rfold]. unfold A_add_node, intra_add_node. by rewrite Hm.
Qed.
End fill.
(** ** C38: several matrices *)
Definition connected (n nm : nat) (ll rl cl : list name) (M : nat -> nat -> nat -> Z) (l x y : name) : Prop :=
  exists k i j, about n nm ll rl cl l x y k i j /\ M k i j <> 0%Z.
Lemma mops_conn n nm ll rl cl M l x y : x <> y -> connected n nm ll rl cl M l x y <->
  exists k i j x' y', k < nm /\ i < n /\ ll !! k = Some l /\ rl !! i = Some y' /\ cl !! j = Some x' /\ x' <> y' /\ M k i j <> 0%Z /\ (x' = x /\ y' = y \/ x' = y /\ y' = x).
Proof.
  intros Hxy. split.
  - intros (k & i & j & (Hk & Hi & Hl & Hor) & Hz). exists k, i, j. destruct Hor as [[? ?]|[? ?]]; [exists y, x|exists x, y]; split_and!; auto.
  - intros (k & i & j & x' & y' & Hk & Hi & Hl & Hy & Hx & Hne & Hz & Hor). exists k, i, j. split; [|done]. split_and!; [done..|].
    destruct Hor as [[-> ->]|[-> ->]]; auto.
Qed.
Lemma mops_layer n nm ll rl cl M h0 : 0 < n -> nm <= length ll -> n <= length rl -> length cl = n -> (h0 = [] \/ (forall e, e ∈ h0 -> exists l x, e = (MAAddNode l x, Ok tt))) -> forall l,
  (exists e, e ∈ mops n nm ll rl cl M ++ h0 /\ mmentions 1 true e 1 l) <-> exists x y, x <> y /\ connected n nm ll rl cl M l x y.
Proof.
  intros Hn Hll Hrln Hcl Hh0 l. setoid_rewrite elem_of_app. split.
  - intros (e & [He|He] & Hm).
    + apply mops_in in He as (k & i & j & l1 & x & y & Hk & Hi & Hl & Hy & Hx & Hne & Hz & ->); [|done..].
      simpl in Hm. destruct Hm as (a & b & w & [_ Hn4] & Hor). apply names4 in Hn4 as [-> ->]. assert (l = l1) as -> by (simpl in Hor; destruct Hor; congruence).
      exists x, y. split; [done|]. apply mops_conn; [done|]. exists k, i, j, x, y. auto 10.
    + destruct Hh0 as [->|Hh0]; [by apply elem_of_nil in He|]. destruct (Hh0 e He) as (l1 & x & ->). simpl in Hm. by destruct Hm as (_ & ? & _).
  - intros (x & y & Hxy & Hc). apply mops_conn in Hc as (k & i & j & x' & y' & Hk & Hi & Hl & Hy & Hx & Hne & Hz & Hor); [|done].
    exists (MSet [x'; y'; l; l] (M k i j), Ok tt). split; [left; apply mops_in; [done..|]; exists k, i, j, l, x', y'; done|].
    simpl. exists [x'; l], [y'; l], (M k i j). split; [|by left]. split; [done|]. by apply names4.
Qed.
Theorem C38_several_matrices n nm labels rlabels clabels llabels emb lines ll rl cl rows M c fi :
  ufile n nm labels rlabels clabels llabels emb lines ll rl cl rows -> matrices n rl cl rows M -> 0 < n -> nm <> 1 ->
  fi = false \/ (forall l, l ∈ ll -> exists x y, x <> y /\ connected n nm ll rl cl M l x y) ->
  exists h p, read_ucinet n nm labels rlabels clabels llabels emb lines c fi = Ok (inr p) /\ mhist [c] false 0 fi h p /\
    (forall l x y, x <> y -> exists w, mreads p [x; l] [y; l] w /\ last_nonzero M (about n nm ll rl cl l x y) w) /\
    (forall l x y, x <> y -> mlinked p [x; l] [y; l] <-> connected n nm ll rl cl M l x y) /\
    (forall a, mexists p a <-> exists x l, a = [x; l] /\
       if fi then (x ∈ cl \/ x ∈ rl) /\ l ∈ ll else exists y, x <> y /\ connected n nm ll rl cl M l x y).
Proof.
  intros Hf HM Hn Hnm Hfill. destruct (ulabels_ok _ _ _ _ _ _ _ _ _ _ _ _ Hf) as (rl0 & cl0 & Hu & Hrl & Hlen & Hud).
  destruct Hf as (_ & Hll & Hrln & Hcl & Hrows & _).
  unfold read_ucinet. rewrite Hu. cbn [rbind]. rewrite decide_False by done. rewrite Hud.
  assert (exists p, rows_fold (cellm n ll cl) emb 0 (if emb then [] else rl0) (new_mpx [c] false 0 fi) rows = Ok (n * nm, rl, p) /\
    mhist [c] false 0 fi (mops n nm ll rl cl M) p) as (p & -> & Hp).
  { destruct (rows_run (mhist [c] false 0 fi) (cellm n ll cl) (mop_at n ll rl cl M) n emb rl0 rl rows Hrl Hlen) with (rows2 := rows) (rows1 := @nil (string * list field)) (h := @nil call) (s := new_mpx [c] false 0 fi) as (p & E & Hp).
    - intros R j row f rl' h s HR Hj Hi Hs. eapply mop_cell; try done. apply Hlen. by eapply elem_of_list_lookup_2.
    - done.
    - constructor.
    - exists p. rewrite Hrows in E. simpl in E. split; [destruct emb; done|]. simpl in Hp. rewrite Hrows in Hp. done. }
  cbn [rbind fst snd]. rewrite decide_True by done. cbn [rbind fst snd].
  assert (exists F p', (if fi then ufill ll cl rl p else Ok p) = Ok p' /\ mhist [c] false 0 fi (mops n nm ll rl cl M ++ F) p' /\
    F = if fi then ll ≫= (fun l => (fun x => (MAAddNode (LBare l) x, Ok tt)) <$> (cl ++ rl)) else []) as (F & p' & -> & Hp' & HF).
  { destruct fi; [|exists [], p; by rewrite app_nil_r]. destruct Hfill as [?|Hfill]; [done|].
    destruct (fill_ok c true ll (cl ++ rl) _ p Hp) as (p' & Hu' & Hp' & _).
    - intros l Hl. apply (C51_nodes_layers_exact _ _ _ _ _ _ Hp ltac:(simpl; lia)).
      destruct (proj2 (mops_layer n nm ll rl cl M [] Hn Hll Hrln Hcl (or_introl eq_refl) l) (Hfill l Hl)) as (e & He & Hm). rewrite app_nil_r in He. by exists e.
    - eexists _, p'. split; [exact Hu'|]. split; [exact Hp'|done]. }
  cbn [rbind].
  assert (forall e, e ∈ F -> exists l x, e = (MAAddNode l x, Ok tt)) as HFe.
  { intros e He. rewrite HF in He. destruct fi; [|by apply elem_of_nil in He]. apply elem_of_list_bind in He as (l & He & _).
    apply elem_of_list_fmap in He as (x & -> & _). eauto. }
  assert (forall l x y, x <> y -> exists w, mreads p' [x; l] [y; l] w /\ last_nonzero M (about n nm ll rl cl l x y) w) as Hreads.
  { intros l x y Hxy. destruct (last_nonzero_exists n nm ll rl cl M l x y Hn Hcl) as [w Hw]. exists w. split; [|done].
    apply (C17_read_last_write _ _ _ _ _ Hp' (LBare l) x y w eq_refl Hxy). apply mops_last; try done.
    intros e w' He. destruct (HFe e He) as (l' & x' & ->). unfold massigns, mwrites. simpl. tauto. }
  exists (mops n nm ll rl cl M ++ F), p'. split; [done|]. split; [done|]. split; [done|]. split.
  - intros l x y Hxy. destruct (Hreads l x y Hxy) as (w & Hw & Hlast). pose proof (mhist_inv _ _ _ _ _ _ Hp') as Hi. unfold mlinked. rewrite (pi_noe _ _ _ _ _ _ Hi). split.
    + intros (w' & Hw' & Hnz). assert (w' = w) as ->.
      { pose proof (pinv_asp _ _ _ _ _ _ Hi) as Has. simpl in Has. apply mreads_pair in Hw, Hw'; [|by rewrite Has..]. congruence. }
      destruct Hlast as [(k & i & j & Ha & HMw & _)|[? _]]; [|done]. exists k, i, j. split; [done|congruence].
    + intros (k & i & j & Ha & Hz). exists w. split; [done|]. destruct Hlast as [(_ & _ & _ & _ & _ & ? & _)|[_ Hall]]; [done|]. by rewrite (Hall _ _ _ Ha) in Hz.
  - intros a. rewrite (C51_node_layers_exact _ _ _ _ _ _ Hp' ltac:(simpl; lia)). simpl length. destruct fi.
    + destruct Hfill as [?|Hfill]; [done|]. 
      assert (forall l, (exists e, e ∈ mops n nm ll rl cl M ++ F /\ mmentions 1 true e 1 l) <-> l ∈ ll) as Hlay.
      { intros l. rewrite (mops_layer n nm ll rl cl M F Hn Hll Hrln Hcl (or_intror HFe) l). split; [|apply Hfill].
        intros (x & y & _ & k & i & j & (_ & _ & Hl & _) & _). by eapply elem_of_list_lookup_2. }
      assert (forall x, ll <> [] -> (exists e, e ∈ mops n nm ll rl cl M ++ F /\ mmentions 1 true e 0 x) <-> x ∈ cl \/ x ∈ rl) as Hnod.
      { intros x Hne. setoid_rewrite elem_of_app. split.
        - intros (e & [He|He] & Hm).
          + apply mops_in in He as (k & i & j & l1 & x1 & y1 & Hk & Hi & Hl & Hy & Hx & Hne1 & Hz & ->); [|done..].
            simpl in Hm. destruct Hm as (a1 & b1 & w & [_ Hn4] & Hor). apply names4 in Hn4 as [-> ->]. simpl in Hor.
            destruct Hor as [[= ->]|[= ->]]; [left|right]; by eapply elem_of_list_lookup_2.
          + rewrite HF in He. apply elem_of_list_bind in He as (l & He & _). apply elem_of_list_fmap in He as (x1 & -> & Hx1). simpl in Hm. destruct Hm as (_ & _ & ->).
            by apply elem_of_app in Hx1.
        - intros Hx. destruct ll as [|l ll0]; [done|]. exists (MAAddNode (LBare l) x, Ok tt). split; [|by simpl]. right. rewrite HF. apply elem_of_list_bind.
          exists l. split; [|left]. apply elem_of_list_fmap. exists x. split; [done|]. by apply elem_of_app. }
      split.
      * intros [Ha Hm]. destruct a as [|x [|l [|]]]; simpl in Ha; try lia. exists x, l. split; [done|].
        assert (l ∈ ll) as Hl by (apply Hlay, (Hm 1 l eq_refl)). split; [|done]. apply Hnod; [by intros ->; apply elem_of_nil in Hl|]. apply (Hm 0 x eq_refl).
      * intros (x & l & -> & Hx & Hl). split; [done|]. assert (ll <> []) as Hne by (by intros ->; apply elem_of_nil in Hl). intros [|[|k]] z Hz; [| |done].
        -- injection Hz as <-. by apply Hnod.
        -- injection Hz as <-. by apply Hlay.
    + rewrite HF, app_nil_r. split.
      * intros (e & x & l & He & [Hform Hc] & ->). apply mops_in in He as (k & i & j & l1 & x1 & y1 & Hk & Hi & Hl & Hy & Hx & Hne1 & Hz & ->); [|done..].
        simpl in Hc. destruct Hc as (a & b & Hn4 & Hor). apply names4 in Hn4 as [-> ->].
        destruct l as [l|ls]; [|simpl in Hform; lia]. destruct Hor as [E|E]; simpl in E.
        -- injection E as -> ->. exists x1, l1. split; [done|]. exists y1. split; [done|]. apply mops_conn; [done|]. exists k, i, j, x1, y1. auto 10.
        -- injection E as -> ->. exists y1, l1. split; [done|]. exists x1. split; [done|]. apply mops_conn; [done|]. exists k, i, j, x1, y1. auto 12.
      * intros (x & l & -> & y & Hxy & Hc). apply mops_conn in Hc as (k & i & j & x' & y' & Hk & Hi & Hl & Hy & Hx & Hne & Hz & Hor); [|done].
        exists (MSet [x'; y'; l; l] (M k i j), Ok tt), x, (LBare l). split; [apply mops_in; [done..|]; exists k, i, j, l, x', y'; done|]. split; [|done].
        split; [done|]. simpl. exists [x'; l], [y'; l]. split; [by apply names4|]. destruct Hor as [[-> ->]|[-> ->]]; auto.
Qed.
(** With one list of different labels for rows and columns this is: [x] and [y] are
    connected iff one of their two entries is nonzero; the weight is the entry in the
    later row if that is nonzero. *)
Theorem C38_connected_iff n nm ll labels M k i j l x y : NoDup ll -> NoDup labels -> length labels = n -> length ll = nm ->
  ll !! k = Some l -> labels !! i = Some x -> labels !! j = Some y -> i < j ->
  (connected n nm ll labels labels M l x y <-> M k i j <> 0%Z \/ M k j i <> 0%Z) /\
  (forall w, last_nonzero M (about n nm ll labels labels l x y) w <-> w = if decide (M k j i = 0%Z) then M k i j else M k j i).
Proof.
  intros Hnl Hnd Hn Hnm Hl Hx Hy Hij.
  assert (forall k' i' j', about n nm ll labels labels l x y k' i' j' <-> k' = k /\ (i' = i /\ j' = j \/ i' = j /\ j' = i)) as Ha.
  { intros k' i' j'. unfold about. split.
    - intros (Hk & Hi & Hl' & Hor). split; [by eapply (NoDup_lookup ll)|]. 
      destruct Hor as [[H1 H2]|[H1 H2]]; [left|right]; split; eapply (NoDup_lookup labels); done.
    - intros (-> & Hor). split; [apply lookup_lt_Some in Hl; lia|]. split; [|split; [done|]].
      + apply lookup_lt_Some in Hx, Hy. destruct Hor as [[-> _]|[-> _]]; lia.
      + destruct Hor as [[-> ->]|[-> ->]]; auto. }
  split.
  - unfold connected. setoid_rewrite Ha. split.
    + intros (k' & i' & j' & (-> & [[-> ->]|[-> ->]]) & Hz); auto.
    + intros [Hz|Hz]; [exists k, i, j|exists k, j, i]; auto 6.
  - intros w. unfold last_nonzero. setoid_rewrite Ha. unfold later. split.
    + intros [(k' & i' & j' & (-> & [[-> ->]|[-> ->]]) & HM & Hw & Hlast)|[-> Hz]].
      * rewrite decide_True; [done|]. apply (Hlast k j i); [auto|]. auto.
      * by rewrite decide_False by congruence.
      * rewrite (Hz k j i), (Hz k i j) by auto. done.
    + destruct (decide (M k j i = 0%Z)) as [Hz|Hz].
      * intros ->. destruct (decide (M k i j = 0%Z)) as [Hz'|Hz'].
        -- right. split; [done|]. intros k' i' j' (-> & [[-> ->]|[-> ->]]); done.
        -- left. exists k, i, j. split; [auto|]. split; [done|]. split; [done|]. intros k' i' j' (-> & [[-> ->]|[-> ->]]) Hlat; [lia|done].
      * intros ->. left. exists k, j, i. split; [auto|]. split; [done|]. split; [done|]. intros k' i' j' (-> & [[-> ->]|[-> ->]]) Hlat; lia.
Qed.
(** A layer without any link: the network is not fully interconnected, the reader fails. *)
Theorem C38_empty_layer_raises n nm labels rlabels clabels llabels emb lines ll rl cl rows M c l :
  ufile n nm labels rlabels clabels llabels emb lines ll rl cl rows -> matrices n rl cl rows M -> 0 < n -> nm <> 1 ->
  l ∈ ll -> (forall x y, x <> y -> ~ connected n nm ll rl cl M l x y) ->
  read_ucinet n nm labels rlabels clabels llabels emb lines c true = Err KeyError.
Proof.
  intros Hf HM Hn Hnm Hl Hempty. destruct (ulabels_ok _ _ _ _ _ _ _ _ _ _ _ _ Hf) as (rl0 & cl0 & Hu & Hrl & Hlen & Hud).
  destruct Hf as (_ & Hll & Hrln & Hcl & Hrows & _).
  unfold read_ucinet. rewrite Hu. cbn [rbind]. rewrite decide_False by done. rewrite Hud.
  assert (exists p, rows_fold (cellm n ll cl) emb 0 (if emb then [] else rl0) (new_mpx [c] false 0 true) rows = Ok (n * nm, rl, p) /\
    mhist [c] false 0 true (mops n nm ll rl cl M) p) as (p & -> & Hp).
  { destruct (rows_run (mhist [c] false 0 true) (cellm n ll cl) (mop_at n ll rl cl M) n emb rl0 rl rows Hrl Hlen) with (rows2 := rows) (rows1 := @nil (string * list field)) (h := @nil call) (s := new_mpx [c] false 0 true) as (p & E & Hp).
    - intros R j row f rl' h s HR Hj Hi Hs. eapply mop_cell; try done. apply Hlen. by eapply elem_of_list_lookup_2.
    - done.
    - constructor.
    - exists p. rewrite Hrows in E. simpl in E. split; [destruct emb; done|]. simpl in Hp. rewrite Hrows in Hp. done. }
  cbn [rbind fst snd]. rewrite decide_True by done. cbn [rbind fst snd]. unfold ufill.
  rewrite (fill_err c true ll (cl ++ rl) l _ p Hp Hl); [done| |].
  - intros Hh. apply (C51_nodes_layers_exact _ _ _ _ _ _ Hp ltac:(simpl; lia)) in Hh as (e & He & Hm).
    destruct (proj1 (mops_layer n nm ll rl cl M [] Hn Hll Hrln Hcl (or_introl eq_refl) l)) as (x & y & Hxy & Hc).
    + exists e. by rewrite app_nil_r.
    + by apply (Hempty x y).
  - destruct cl; simpl in *; [lia|done].
Qed.
(** ** C38: one matrix *)
Section single.
Context (n : nat) (rl cl : list name) (M : nat -> nat -> nat -> Z).
Hypothesis Hn : 0 < n.
Hypothesis Hrl : n <= length rl.
Hypothesis Hcl : length cl = n.
Definition conv (e : call) : op := match e.1 with MSet [x; y; _; _] v => OpNodeSet [x] [y] v | _ => OpAddLayer (NInt 0) 0 end.
Definition sop_at (R j : nat) : list op := conv <$> mop_at n [NInt 0] rl cl M R j.
Lemma sop_cell rows : length rows = n * 1 -> matrices n rl cl rows M ->
  forall R j row f rl' h s, rows !! R = Some row -> row.2 !! j = Some f -> length (row.2) = n ->
  (forall i, i <= R -> rl' !! i = rl !! i) -> hist 0 0 false true h s ->
  exists s', cell1 cl rl' R s (j, f) = Ok s' /\ hist 0 0 false true (h ++ sop_at R j) s'.
Proof.
  intros Hlr HM R j row f rl' h s HR Hj Hlen Hi Hs. pose proof (lookup_lt_Some _ _ _ HR) as HRl. pose proof (lookup_lt_Some _ _ _ Hj) as Hjl.
  assert (R / n = 0) as Hk by (apply Nat.div_small; lia). assert (R mod n = R) as Hm by (apply Nat.mod_small; lia).
  destruct (lookup_lt_is_Some_2 rl R ltac:(lia)) as [y Hy].
  destruct (lookup_lt_is_Some_2 cl j ltac:(lia)) as [x Hx].
  unfold sop_at, mop_at. rewrite Hk, Hm, Hy, Hx. simpl (_ !! 0). unfold cell1, label_at. cbn [fst snd]. rewrite Hx. cbn [rbind].
  rewrite Hi by lia. rewrite Hy. cbn [rbind].
  destruct (decide (x = y)) as [|Hxy]; [exists s; by rewrite app_nil_r|].
  assert (f.2 = Some (M 0 R j)) as Hf. { apply (HM 0 R j row f y x); try done. lia. }
  unfold float_of. rewrite Hf. cbn [rbind]. destruct (decide (M 0 R j = 0%Z)) as [|Hz]; [exists s; by rewrite app_nil_r|].
  destruct (C05_write_effect _ _ _ _ _ _ Hs (OpNodeSet [x] [y] (M 0 R j)) [x] [y] (M 0 R j)) as (_ & _ & Hke & Hok); [done|].
  simpl in Hke, Hok. exists (node_setitem s [x] [y] (M 0 R j)).1. unfold out_res. rewrite Hok.
  - split; [done|]. apply (hist_op _ _ _ _ h s (OpNodeSet [x] [y] (M 0 R j)) Hs).
  - intros Hbad. apply Hke in Hbad. tauto.
Qed.
Lemma conv_assigns e x y w : e ∈ mops n 1 [NInt 0] rl cl M -> assigns 0 false (conv e) [x] [y] w <-> massigns 1 false e (LBare (NInt 0)) x y w.
Proof.
  intros He. apply (mops_in n 1 [NInt 0] rl cl M Hn (le_n 1) Hrl Hcl) in He as (k & i & j & l & x1 & y1 & Hk & Hi & Hl & Hy & Hx & Hne & Hz & ->).
  assert (l = NInt 0) as ->. { destruct k as [|k]; [by injection Hl as <-|lia]. }
  rewrite set4_assigns. unfold assigns. simpl. split.
  - intros [(-> & [= ->] & [= ->] & _)|(_ & -> & [= ->] & [= ->] & _)]; auto.
  - intros (-> & _ & [[-> ->]|[-> ->]]); [left|right]; done.
Qed.
Lemma conv_last x y w : mlast 1 false (mops n 1 [NInt 0] rl cl M) (LBare (NInt 0)) x y w ->
  last_assigned 0 0 false (conv <$> mops n 1 [NInt 0] rl cl M) [x] [y] w.
Proof.
  intros [(h1 & e & h2 & E & Ha & Hlast)|[-> Hz]].
  - left. exists (conv <$> h1), (conv e), (conv <$> h2). rewrite E, fmap_app. split; [done|]. split.
    + apply conv_assigns; [|done]. rewrite E. apply elem_of_app. right. left.
    + intros o w' (e' & -> & He')%elem_of_list_fmap. rewrite conv_assigns; [by apply Hlast|]. rewrite E. apply elem_of_app. right. by right.
  - right. split; [done|]. intros o w' (e' & -> & He')%elem_of_list_fmap. rewrite conv_assigns by done. by apply Hz.
Qed.
End single.
(** One matrix: the nodes without links are lost. *)
Theorem C38_one_matrix n labels rlabels clabels llabels emb lines ll rl cl rows M c fi :
  ufile n 1 labels rlabels clabels llabels emb lines ll rl cl rows -> matrices n rl cl rows M -> 0 < n ->
  let Q x y k i j := k = 0 /\ i < n /\ (rl !! i = Some x /\ cl !! j = Some y \/ rl !! i = Some y /\ cl !! j = Some x) in
  exists h m, read_ucinet n 1 labels rlabels clabels llabels emb lines c fi = Ok (inl m) /\ hist 0 0 false true h m /\
    (forall x y, x <> y -> exists w, reads m [x] [y] w /\ last_nonzero M (Q x y) w) /\
    (forall x y, linked m [x] [y] <-> x <> y /\ exists k i j, Q x y k i j /\ M k i j <> 0%Z) /\
    (forall x, has_elem m 0 x <-> exists y, linked m [x] [y]).
Proof.
  intros Hf HM Hn Q. destruct (ulabels_ok _ _ _ _ _ _ _ _ _ _ _ _ Hf) as (rl0 & cl0 & Hu & Hrl & Hlen & Hud).
  destruct Hf as (_ & Hll & Hrln & Hcl & Hrows & _).
  unfold read_ucinet. rewrite Hu. cbn [rbind]. rewrite decide_True by done. rewrite Hud.
  set (h := conv <$> mops n 1 [NInt 0] rl cl M).
  assert (exists m, rows_fold (cell1 cl) emb 0 (if emb then [] else rl0) (new_net 0 0 false true) rows = Ok (n * 1, rl, m) /\ hist 0 0 false true h m) as (m & -> & Hm).
  { destruct (rows_run (hist 0 0 false true) (cell1 cl) (sop_at n rl cl M) n emb rl0 rl rows Hrl Hlen) with (rows2 := rows) (rows1 := @nil (string * list field)) (h := @nil op) (s := new_net 0 0 false true) as (p & E & Hp).
    - intros R j row f rl' h' s HR Hj Hi Hs. eapply sop_cell; try done. apply Hlen. by eapply elem_of_list_lookup_2.
    - done.
    - constructor.
    - exists p. rewrite Hrows in E. simpl in E. split; [destruct emb; done|]. simpl in Hp. rewrite Hrows in Hp.
      replace h with (seq 0 (n * 1) ≫= (fun R => seq 0 n ≫= sop_at n rl cl M R)); [done|].
      unfold h, mops. generalize (seq 0 (n * 1)) as Rs. induction Rs as [|R Rs IH]; [done|]. cbn [mbind list_bind]. rewrite fmap_app, IH. f_equal.
      generalize (seq 0 n) as js. induction js as [|j js IHj]; [done|]. cbn [mbind list_bind]. by rewrite fmap_app, IHj. }
  cbn [rbind fst snd]. rewrite decide_True by done. cbn [rbind fst snd].
  assert (forall x y k i j, about n 1 [NInt 0] rl cl (NInt 0) x y k i j <-> Q x y k i j) as HQ.
  { intros x y k i j. unfold about, Q. split; [intros (? & ? & _ & ?); split; [lia|done]|intros (-> & ? & ?); split; [lia|]; done]. }
  assert (forall x y w, last_nonzero M (about n 1 [NInt 0] rl cl (NInt 0) x y) w <-> last_nonzero M (Q x y) w) as HLQ.
  { intros x y w. unfold last_nonzero. by setoid_rewrite HQ. }
  assert (forall x y, x <> y -> exists w, reads m [x] [y] w /\ last_nonzero M (Q x y) w) as Hreads.
  { intros x y Hxy. destruct (last_nonzero_exists n 1 [NInt 0] rl cl M (NInt 0) x y Hn Hcl) as [w Hw]. exists w. split; [|by apply HLQ].
    apply (C01_read_last_write _ _ _ _ _ _ Hm); [done..|]. apply conv_last; [done..|].
    rewrite <- (app_nil_r (mops n 1 [NInt 0] rl cl M)). apply mops_last; try done. by intros e w' ?%elem_of_nil. }
  assert (forall x y, linked m [x] [y] <-> x <> y /\ exists k i j, Q x y k i j /\ M k i j <> 0%Z) as Hlk.
  { intros x y. destruct (hist_inv _ _ _ _ _ _ Hm) as [_ _ Has Hnoe _ _]. destruct (decide (x = y)) as [->|Hxy].
    - split; [|tauto]. intros (_ & _ & w & Hw & Hnz). rewrite Hnoe in Hnz. exfalso. apply (C01_read_last_write _ _ _ _ _ _ Hm) in Hw; [|done..].
      assert (forall e w', e ∈ mops n 1 [NInt 0] rl cl M -> ~ assigns 0 false (conv e) [y] [y] w') as Hno.
      { intros e w' He. rewrite (conv_assigns n rl cl M) by done. apply (mops_in n 1 [NInt 0] rl cl M Hn (le_n 1) Hrln Hcl) in He as (k & i & j & l & x1 & y1 & Hk & Hi & Hl & Hy & Hx & Hne & Hz & ->).
        rewrite set4_assigns. intros (_ & _ & [[-> ->]|[-> ->]]); done. }
      destruct Hw as [(h1 & o & h2 & E & Ha & _)|[? _]]; [|done].
      assert (o ∈ h) as Ho by (rewrite E; apply elem_of_app; right; left). apply elem_of_list_fmap in Ho as (e & -> & He). by eapply Hno.
    - destruct (Hreads x y Hxy) as (w & Hw & Hlast). unfold linked. rewrite Hnoe. split.
      + intros (_ & _ & w' & Hw' & Hnz). split; [done|]. assert (w' = w) as ->. { apply reads_rd in Hw, Hw'; [|by rewrite Has..]. congruence. }
        destruct Hlast as [(k & i & j & Ha & HMw & _)|[? _]]; [|done]. exists k, i, j. split; [done|congruence].
      + intros (_ & k & i & j & Ha & Hz). split; [by rewrite Has|]. split; [by rewrite Has|]. exists w. split; [done|]. destruct Hlast as [(_ & _ & _ & _ & _ & ? & _)|[_ Hall]]; [done|]. by rewrite (Hall _ _ _ Ha) in Hz. }
  exists h, m. split; [done|]. split; [done|]. split; [done|]. split; [done|].
  intros x. rewrite (C12_nodes_and_layers_exact _ _ _ _ _ _ Hm). setoid_rewrite Hlk. split.
  - intros (o & (e & -> & He)%elem_of_list_fmap & Hmen). apply (mops_in n 1 [NInt 0] rl cl M Hn (le_n 1) Hrln Hcl) in He as (k & i & j & l & x1 & y1 & Hk & Hi & Hl & Hy & Hx & Hne & Hz & ->).
    simpl in Hmen. destruct Hmen as (a & b & w & (_ & <- & <- & _) & Hor). destruct Hor as [[= ->]|[= ->]].
    + exists y1. split; [done|]. exists k, i, j. split; [|done]. split; [lia|]. auto.
    + exists x1. split; [done|]. exists k, i, j. split; [|done]. split; [lia|]. auto.
  - intros (y & Hxy & k & i & j & (-> & Hi & Hor) & Hz).
    assert (exists x1 y1, rl !! i = Some y1 /\ cl !! j = Some x1 /\ (x1 = x /\ y1 = y \/ x1 = y /\ y1 = x)) as (x1 & y1 & Hy1 & Hx1 & Hor').
    { destruct Hor as [[? ?]|[? ?]]; eexists _, _; eauto. }
    exists (OpNodeSet [x1] [y1] (M 0 i j)). split.
    + apply elem_of_list_fmap. exists (MSet [x1; y1; NInt 0; NInt 0] (M 0 i j), Ok tt). split; [done|]. apply (mops_in n 1 [NInt 0] rl cl M Hn (le_n 1) Hrln Hcl).
      exists 0, i, j, (NInt 0), x1, y1. split; [lia|]. split; [done|]. split; [done|]. split; [done|]. split; [done|]. split; [|done]. destruct Hor' as [[-> ->]|[-> ->]]; congruence.
    + simpl. exists [x1], [y1], (M 0 i j). split; [done|]. destruct Hor' as [[-> ->]|[-> ->]]; auto.
Qed.
(** Only complete matrices are read. *)
Theorem C38_only_complete_files n nm labels rlabels clabels llabels emb lines c fi r : 0 < n ->
  read_ucinet n nm labels rlabels clabels llabels emb lines c fi = Ok r ->
  (nm = 1 <-> exists m, r = inl m) /\
  exists rows lines' header, lines = header ++ lines' /\ length header = (if emb then 1 else 0) /\ layout n emb rows lines' /\ length rows = n * nm.
Proof.
  intros Hn H. unfold read_ucinet in H. destruct (ulabels _ _ _ _ _ _ _) as [[[ll rl] cl]|] eqn:Hu; [|done]. cbn [rbind] in H.
  assert (forall S (cell : list name -> list name -> nat -> S -> nat * field -> res S) s x, udata cell n nm emb cl rl s lines = Ok x ->
    exists rows lines' header, lines = header ++ lines' /\ length header = (if emb then 1 else 0) /\ layout n emb rows lines' /\ length rows = n * nm) as Hud.
  { intros S cell s x Hx. unfold udata in Hx.
    assert (exists cl' rl' lines' header, lines = header ++ lines' /\ length header = (if emb then 1 else 0) /\
      (if decide (length cl' = n) then let? x := urows (cell cl') n emb [] 0 rl' s lines' in if decide (x.1.1 = n * nm) then Ok (cl', x.1.2, x.2) else Err AssertionError else Err AssertionError) = Ok x)
      as (cl' & rl' & lines' & header & -> & Hh & Hx').
    { destruct emb.
      - destruct lines as [|line lines]; [done|]. eexists _, _, lines, [line]. split; [done|]. split; [done|]. exact Hx.
      - eexists _, _, lines, []. split; [done|]. split; [done|]. exact Hx. }
    destruct (decide (length cl' = n)); [|done]. destruct (urows _ _ _ _ _ _ _ _) as [[[N rl1] s1]|] eqn:E; [|done]. cbn [rbind fst snd] in Hx'. destruct (decide (N = n * nm)) as [HN|]; [|done].
    destruct (urows_accepts _ _ _ _ _ _ _ _ Hn E) as [rows Hl]. exists rows, lines', header. split; [done|]. split; [done|]. split; [done|].
    rewrite (urows_layout _ _ _ _ _ Hl) in E. rewrite <- HN. clear -E.
    assert (forall rows R rl s, rows_fold (cell cl') emb R rl s rows = Ok (N, rl1, s1) -> N = R + length rows) as Hg.
    { clear. induction rows as [|r rows IH]; intros R rl s E; simpl in E; [injection E as <- _ _; simpl; lia|].
      destruct (rfold _ _ _); [|done]. apply IH in E. simpl. lia. }
    symmetry. by apply Hg in E. }
  destruct (decide (nm = 1)) as [->|Hnm].
  - destruct (udata _ _ _ _ _ _ _ _) as [x|] eqn:E; [|done]. injection H as <-. split; [split; [eauto|done]|]. by apply Hud in E.
  - destruct (udata _ _ _ _ _ _ _ _) as [x|] eqn:E; [|done]. cbn [rbind] in H. destruct (if fi then _ else _) as [p|]; [|done]. injection H as <-.
    split; [split; [done|by intros [m ?]]|]. by apply Hud in E.
Qed.
(** ** C39 *)
(** [net.A[l][x,y]]. *)
Definition layer_weight (p : mpx) (l x y : name) (w : Z) : Prop := agetitem p (LBare l) [x; y] = Ok w.
(** [L] lists the links of layer [l]: each once, and if the network is undirected in one
    of the two directions. *)
Definition lists_links (dir : bool) (p : mpx) (l : name) (L : list (name * name * Z)) : Prop :=
  NoDup L /\
  (forall x y w, (x, y, w) ∈ L -> layer_weight p l x y w /\ w <> 0%Z) /\
  (forall x y w, layer_weight p l x y w -> w <> 0%Z -> (x, y, w) ∈ L \/ dir = false /\ (y, x, w) ∈ L) /\
  (dir = false -> forall x y w w', (x, y, w) ∈ L -> (y, x, w') ∈ L -> x = y).
Definition triple (e : list name * Z) : name * name * Z := match e.1 with [x; y] => (x, y, e.2) | _ => (NInt 0, NInt 0, e.2) end.
Lemma layer_links c dir fi h p l : mhist [c] dir 0 fi h p -> mhas p 1 l ->
  exists m, intra p (LBare l) = Ok m /\ (forall e, e ∈ edges m -> exists x y w, e = ([x; y], w)) /\ lists_links dir p l (triple <$> edges m) /\
    forall x y w, ([x; y], w) ∈ edges m -> x ∈ mnodes p /\ y ∈ mnodes p.
Proof.
  intros Hh Hl. pose proof (mhist_inv _ _ _ _ _ _ Hh) as H. pose proof (pinv_asp _ _ _ _ _ _ H) as Has.
  destruct (lay_pA p (LBare l) (pi_wf _ _ _ _ _ _ H)) as [m Hm]; [split; [done|by apply psl_mhas]|done|].
  exists m. unfold intra. rewrite Hm. split; [done|].
  destruct (pi_view _ _ _ _ _ _ H _ _ Hm) as (g & Hg & _). pose proof (hist_good _ _ _ _ _ _ Hg) as Hgd. destruct (hist_inv _ _ _ _ _ _ Hg) as [HwS _ Hma Hmn Hmd _].
  assert (forall x y w, layer_weight p l x y w <-> reads m [x] [y] w) as Hlw.
  { intros x y w. unfold layer_weight, agetitem. rewrite Hm. simpl. rewrite reads_rd by (by rewrite Hma). change (get_link m [x; y]) with (weight m [x] [y]). rewrite weight_rd by done. split; congruence. }
  assert (forall a b e, linked m a b -> edge_tuple m a b e -> exists x y, a = [x] /\ b = [y] /\ e = ([x; y], e.2) /\ reads m [x] [y] (e.2) /\ e.2 <> 0%Z) as Htup.
  { intros a b [it w] (Ha & Hb & w' & Hw' & Hnz) (Hit & Hn & Hr). rewrite Hma in *. simpl in Ha, Hb. destruct a as [|x [|]]; try done. destruct b as [|y [|]]; try done.
    exists x, y. split; [done|]. split; [done|]. simpl in *. assert (it = [x; y]) as ->.
    { inversion Hn as [? ? ? H1 H2 H3 G1 G2|? ? ? Hs]; subst; [|done].
      destruct it as [|i0 [|i1 [|]]]; simpl in Hit; try lia. pose proof (G1 0) as E1. pose proof (G2 0) as E2. simpl in E1, E2. congruence. }
    split; [done|]. split; [done|]. apply reads_rd in Hr, Hw'; [|by rewrite Hma..]. rewrite Hmn in Hnz. congruence. }
  assert (forall x y w, reads m [x] [y] w -> w <> 0%Z -> linked m [x] [y]) as Hlk.
  { intros x y w Hr Hw. split; [by rewrite Hma|]. split; [by rewrite Hma|]. exists w. by rewrite Hmn. }
  assert (forall x y w, reads m [x] [y] w -> edge_tuple m [x] [y] ([x; y], w)) as Htu.
  { intros x y w Hr. split; [by rewrite Hma|]. split; [|done]. rewrite Hma. by apply names_short. }
  assert (forall e, e ∈ edges m -> exists a b, linked m a b /\ edge_tuple m a b e) as Hed.
  { intros e He. destruct dir; [|by apply (C10_undirected_edges_exact _ _ _ _ _ Hg)]. by apply (C10_directed_edges_exact _ _ _ _ _ Hg). }
  assert (forall e, e ∈ edges m -> exists x y w, e = ([x; y], w) /\ reads m [x] [y] w /\ w <> 0%Z) as Hed2.
  { intros e He. destruct (Hed e He) as (a & b & Hab & Ht). destruct (Htup a b e Hab Ht) as (x & y & -> & -> & -> & ? & ?). eauto 6. }
  assert (forall x y w, (x, y, w) ∈ triple <$> edges m <-> ([x; y], w) ∈ edges m) as Hin.
  { intros x y w. rewrite elem_of_list_fmap. split; [|intros He; by exists ([x; y], w)].
    intros (e & E & He). destruct (Hed2 e He) as (x' & y' & w' & -> & _). unfold triple in E. simpl in E. by injection E as -> -> ->. }
  split; [intros e He; destruct (Hed2 e He) as (x & y & w & -> & _); eauto|]. split.
  - split; [|split; [|split]].
    + apply NoDup_fmap_2_strong; [|destruct dir; [by apply (C10_directed_edges_exact _ _ _ _ _ Hg)|by apply (C10_undirected_edges_exact _ _ _ _ _ Hg)]].
      intros e e' He He'. destruct (Hed2 e He) as (x & y & w & -> & _). destruct (Hed2 e' He') as (x' & y' & w' & -> & _). unfold triple. simpl. congruence.
    + intros x y w He%Hin. destruct (Hed2 _ He) as (x' & y' & w' & [= <- <- <-] & Hr & Hw). by rewrite Hlw.
    + intros x y w Hw Hnz. rewrite Hlw in Hw. rewrite !Hin. destruct dir.
      * left. apply (C10_directed_edges_exact _ _ _ _ _ Hg). exists [x], [y]. split; [by eapply Hlk|by apply Htu].
      * destruct (C10_undirected_edges_exact _ _ _ _ _ Hg) as (_ & _ & Hc & _). destruct (Hc [x] [y] (Hlk _ _ _ Hw Hnz)) as ([it w0] & He & Ht).
        pose proof (Hlk _ _ _ Hw Hnz) as Hl1. assert (reads m [y] [x] w) as Hw2 by (by apply (C02_undirected_symmetric _ _ _ _ _ Hg)).
        destruct Ht as [Ht|Ht].
        -- left. destruct (Htup _ _ _ Hl1 Ht) as (x' & y' & [= <-] & [= <-] & [= ->] & Hr & _). apply reads_rd in Hr, Hw; [|by rewrite Hma..]. simpl in Hr. by rewrite Hw, <- Hr.
        -- right. split; [done|]. destruct (Htup _ _ _ (Hlk _ _ _ Hw2 Hnz) Ht) as (x' & y' & [= <-] & [= <-] & [= ->] & Hr & _). apply reads_rd in Hr, Hw2; [|by rewrite Hma..]. simpl in Hr. by rewrite Hw2, <- Hr.
    + intros -> x y w w' He%Hin He'%Hin. destruct (C10_undirected_edges_exact _ _ _ _ _ Hg) as (_ & _ & _ & Hu).
      destruct (Hed2 _ He) as (? & ? & ? & [= <- <- <-] & Hr & _). destruct (Hed2 _ He') as (? & ? & ? & [= <- <- <-] & Hr' & _).
      pose proof (Hu [x] [y] _ _ He He' (Htu _ _ _ Hr) (or_intror (Htu _ _ _ Hr'))) as E. congruence.
  - intros x y w He. destruct (Hed2 _ He) as (? & ? & ? & [= <- <- <-] & Hr & Hw). pose proof (Hlk _ _ _ Hr Hw) as Hlxy.
    destruct (C12_links_between_node_layers _ _ _ _ _ _ Hg _ _ Hlxy) as (_ & _ & Hel).
    assert (forall z, has_elem m 0 z -> z ∈ mnodes p) as Hz.
    { intros z Hz. apply has_elem_sl in Hz. destruct Hz as (s & Hs & Hzs). destruct fi eqn:Ef.
      - rewrite <- (pA_nodes_fic p _ m Hm (pi_fic _ _ _ _ _ _ H)). unfold net_nodes. by rewrite Hs.
      - apply mnodes_psl. apply (pw_n2l p (pi_wf _ _ _ _ _ _ H) z (LBare l)). unfold pA in Hm. rewrite (pi_fic _ _ _ _ _ _ H) in Hm.
        destruct (dget (mA p) (LBare l)) as [m0|] eqn:Ed; [|done]. injection Hm as ->.
        apply (pw_node p (pi_wf _ _ _ _ _ _ H) (pi_fic _ _ _ _ _ _ H) _ _ z Ed). unfold net_nodes. by rewrite Hs. }
    split; apply Hz; apply (Hel 0); auto.
Qed.
(** The link [q] of the structure [j] names the link [x] -> [y] on layer [l]. *)
Definition decodes (j : json) (q : nat * nat * Z * nat) (l x y : name) : Prop :=
  j_nodes j !! q.1.1.1 = Some x /\ j_nodes j !! q.1.1.2 = Some y /\ j_layers j !! q.2 = Some l.
Definition pos (L : list name) (x : name) : nat := match list_find (x =.) L with Some (i, _) => i | None => 0 end.
Lemma index_pos L x : x ∈ L -> index_of L x = Ok (pos L x) /\ L !! pos L x = Some x.
Proof.
  intros Hx. unfold index_of, pos. destruct (list_find_elem_of (x =.) L x Hx eq_refl) as [[i y] E]. rewrite E. split; [done|].
  by apply list_find_Some in E as (? & -> & _).
Qed.
(** All layers: the links of layer [l] in the form [g l (x,y,w)]. *)
Lemma layers_links {B} c dir fi h p (f : name -> list name * Z -> res B) (g : name -> name * name * Z -> B) : mhist [c] dir 0 fi h p ->
  (forall l x y w, mhas p 1 l -> x ∈ mnodes p -> y ∈ mnodes p -> f l ([x; y], w) = Ok (g l (x, y, w))) ->
  exists ls L, layers1 p = Ok ls /\ lists_exactly ls (mhas p 1) /\ (forall l, l ∈ ls -> lists_links dir p l (L l)) /\
    (forall l x y w, l ∈ ls -> (x, y, w) ∈ L l -> x ∈ mnodes p /\ y ∈ mnodes p) /\
    forall l, l ∈ ls -> (let? m := intra p (LBare l) in rmapM (f l) (edges m)) = Ok (g l <$> L l).
Proof.
  intros Hh Hf. pose proof (mhist_inv _ _ _ _ _ _ Hh) as H. pose proof (pinv_asp _ _ _ _ _ _ H) as Has.
  assert (exists ls, layers1 p = Ok ls /\ lists_exactly ls (mhas p 1)) as (ls & Hls & Hlse).
  { unfold layers1, mget_layers. pose proof (pw_len p (pi_wf _ _ _ _ _ _ H)) as Hlen. rewrite Has in Hlen. simpl in Hlen.
    destruct (lookup_lt_is_Some_2 (mslices p) 1 ltac:(lia)) as [ls E]. rewrite E. exists ls. split; [done|]. split.
    - pose proof (pw_nd p (pi_wf _ _ _ _ _ _ H)) as Hnd. rewrite Forall_forall in Hnd. apply Hnd. by eapply elem_of_list_lookup_2.
    - intros l. unfold mhas, mget_layers. rewrite E. split; [eauto|]. by intros (s & [= <-] & ?). }
  exists ls, (fun l => triple <$> edges (default (new_net 0 0 false true) (pA p (LBare l)))). split; [done|]. split; [done|].
  assert (forall l, l ∈ ls -> exists m, pA p (LBare l) = Some m /\ intra p (LBare l) = Ok m /\ (forall e, e ∈ edges m -> exists x y w, e = ([x; y], w)) /\ lists_links dir p l (triple <$> edges m) /\
    forall x y w, ([x; y], w) ∈ edges m -> x ∈ mnodes p /\ y ∈ mnodes p) as Hm.
  { intros l Hl%Hlse. destruct (layer_links c dir fi h p l Hh Hl) as (m & Hm & Hr). exists m. split; [|done]. unfold intra in Hm. destruct (pA p (LBare l)); congruence. }
  split; [|split].
  - intros l Hl. destruct (Hm l Hl) as (m & -> & _ & _ & ? & _). done.
  - intros l x y w Hl. destruct (Hm l Hl) as (m & -> & _ & He & _ & Hn). simpl. intros (e & E & Hee)%elem_of_list_fmap.
    destruct (He e Hee) as (x' & y' & w' & ->). unfold triple in E. simpl in E. injection E as -> -> ->. by eapply Hn.
  - intros l Hl. destruct (Hm l Hl) as (m & -> & -> & He & _ & Hn). cbn [rbind default]. rewrite (rmapM_Ok_iff _ (fun e => g l (triple e))).
    + by rewrite <- list_fmap_compose.
    + intros e Hee. destruct (He e Hee) as (x & y & w & ->). apply Hn in Hee as [? ?]. apply Hf; [by apply Hlse|done|done].
Qed.
Lemma concat_bind {A B} (f : A -> list B) (l : list A) : concat (f <$> l) = l ≫= f.
Proof. induction l as [|x l IH]; [done|]. cbn [mbind list_bind]. rewrite <- IH. done. Qed.
Theorem C39_json_faithful c dir fi h p : mhist [c] dir 0 fi h p ->
  exists j, write_json p = Ok j /\
    lists_exactly (j_nodes j) (mhas p 0) /\ lists_exactly (j_layers j) (mhas p 1) /\ NoDup (j_links j) /\
    (forall q, q ∈ j_links j -> exists l x y, decodes j q l x y /\ layer_weight p l x y (q.1.2) /\ q.1.2 <> 0%Z) /\
    (forall l x y w, layer_weight p l x y w -> w <> 0%Z ->
       exists q, q ∈ j_links j /\ q.1.2 = w /\ (decodes j q l x y \/ dir = false /\ decodes j q l y x)) /\
    (dir = false -> forall q q' l x y, q ∈ j_links j -> q' ∈ j_links j -> decodes j q l x y -> decodes j q' l y x -> q = q').
Proof.
  intros Hh. pose proof (mhist_inv _ _ _ _ _ _ Hh) as H. pose proof (pinv_asp _ _ _ _ _ _ H) as Has.
  assert (lists_exactly (mnodes p) (mhas p 0)) as Hnodes.
  { split; [|intros x; by rewrite <- psl_mhas, mnodes_psl]. unfold mnodes. destruct (mslices p !! 0) as [s|] eqn:E; [|constructor]. simpl.
    pose proof (pw_nd p (pi_wf _ _ _ _ _ _ H)) as Hnd. rewrite Forall_forall in Hnd. apply Hnd. by eapply elem_of_list_lookup_2. }
  destruct (layers1 p) as [ls|] eqn:Hls; [|exfalso; destruct (layers_links (B := unit) c dir fi h p (fun _ _ => Ok tt) (fun _ _ => tt) Hh) as (? & ? & ? & _); [done|congruence]].
  set (enc := fun l (q : name * name * Z) => (pos (mnodes p) (q.1.1), pos (mnodes p) (q.1.2), q.2, pos ls l)).
  destruct (layers_links c dir fi h p (fun l (e : list name * Z) =>
        match e.1 with
        | [x; y] => let? s := index_of (mnodes p) x in let? t := index_of (mnodes p) y in let? k := index_of ls l in Ok (s, t, e.2, k)
        | _ => Err IndexError
        end) enc Hh) as (ls' & L & Hls' & Hlse & HL & Hnod & Hrun).
  { intros l x y w Hl Hx Hy. cbn [fst snd]. rewrite (proj1 (index_pos _ _ Hx)), (proj1 (index_pos _ _ Hy)). cbn [rbind].
    assert (l ∈ ls) as Hl'. { unfold layers1 in Hls. destruct Hl as (s & Hs & ?). congruence. } by rewrite (proj1 (index_pos _ _ Hl')). }
  rewrite Hls in Hls'. injection Hls' as <-.
  exists (MkJson (mnodes p) ls (ls ≫= fun l => enc l <$> L l)). unfold write_json. rewrite decide_True by (right; done). rewrite Hls. cbn [rbind].
  rewrite (rmapM_Ok_iff _ (fun l => enc l <$> L l)) by exact Hrun. cbn [rbind].
  rewrite concat_bind.
  split; [done|]. split; [done|]. split; [done|].
  assert (forall l x y w, l ∈ ls -> (x, y, w) ∈ L l -> decodes (MkJson (mnodes p) ls (ls ≫= fun l => enc l <$> L l)) (enc l (x, y, w)) l x y) as Hdec.
  { intros l x y w Hl Hq. destruct (Hnod l x y w Hl Hq) as [Hx Hy]. unfold decodes, enc. simpl.
    split; [by apply index_pos|]. split; by apply index_pos. }
  assert (forall q l x y, q ∈ (ls ≫= fun l => enc l <$> L l) -> decodes (MkJson (mnodes p) ls (ls ≫= fun l => enc l <$> L l)) q l x y ->
    l ∈ ls /\ (x, y, q.1.2) ∈ L l /\ q = enc l (x, y, q.1.2)) as Hinv.
  { intros q l x y Hq Hd. apply elem_of_list_bind in Hq as (l' & Hq & Hl'). apply elem_of_list_fmap in Hq as ([[x' y'] w] & -> & Hq).
    pose proof (Hdec l' x' y' w Hl' Hq) as Hd'. destruct Hd as (D1 & D2 & D3). destruct Hd' as (D1' & D2' & D3').
    assert (x' = x) as -> by congruence. assert (y' = y) as -> by congruence. assert (l' = l) as -> by congruence. done. }
  split; [|split; [|split]]; simpl.
  - apply NoDup_bind; [apply Hlse| |].
    + intros l Hl. apply NoDup_fmap_2_strong; [|apply (HL l Hl)]. intros [[x y] w] [[x' y'] w'] Hq Hq' E.
      pose proof (Hdec l x y w Hl Hq) as (D1 & D2 & D3). pose proof (Hdec l x' y' w' Hl Hq') as (D1' & D2' & D3'). unfold enc in *. simpl in *. injection E as E1 E2 E3. congruence.
    + intros l l' q Hl Hl' (q1 & -> & Hq1)%elem_of_list_fmap (q2 & E & Hq2)%elem_of_list_fmap. destruct q1 as [[x y] w], q2 as [[x' y'] w'].
      pose proof (Hdec l x y w Hl Hq1) as (_ & _ & D). pose proof (Hdec l' x' y' w' Hl' Hq2) as (_ & _ & D'). unfold enc in *. simpl in *. injection E as E1 E2 E3 E4. congruence.
  - intros q Hq. pose proof Hq as Hq0. apply elem_of_list_bind in Hq as (l & Hq & Hl). apply elem_of_list_fmap in Hq as ([[x y] w] & -> & Hq).
    exists l, x, y. split; [by apply Hdec|]. by apply (HL l Hl).
  - intros l x y w Hw Hnz. assert (l ∈ ls) as Hl.
    { apply Hlse. unfold layer_weight, agetitem in Hw. destruct (pA p (LBare l)) as [m|] eqn:Hm; [|done]. apply pA_lay in Hm as [[_ ?] _]; [|apply H]. by apply psl_mhas. }
    destruct (HL l Hl) as (_ & _ & Hc & _). destruct (Hc x y w Hw Hnz) as [Hin|[-> Hin]].
    + exists (enc l (x, y, w)). split; [apply elem_of_list_bind; exists l; split; [by apply elem_of_list_fmap_1|done]|]. split; [done|]. left. by apply Hdec.
    + exists (enc l (y, x, w)). split; [apply elem_of_list_bind; exists l; split; [by apply elem_of_list_fmap_1|done]|]. split; [done|]. right. split; [done|]. by apply Hdec.
  - intros -> q q' l x y Hq Hq' Hd Hd'. destruct (Hinv q l x y Hq Hd) as (Hl & Hin & ->). destruct (Hinv q' l y x Hq' Hd') as (_ & Hin' & ->).
    destruct (HL l Hl) as (_ & Hs & _ & Hu). assert (x = y) as -> by (by eapply Hu). apply Hs in Hin as [Hw _]. apply Hs in Hin' as [Hw' _]. unfold layer_weight in *.
    assert (q.1.2 = q'.1.2) as -> by congruence. done.
Qed.
(** Two networks (both directed or both undirected) with the same structure have the same
    nodes, layers and links. *)
Theorem C39_json_determines_network c c' dir fi fi' h h' p p' j : mhist [c] dir 0 fi h p -> mhist [c'] dir 0 fi' h' p' ->
  write_json p = Ok j -> write_json p' = Ok j ->
  (forall k x, k <= 1 -> mhas p k x <-> mhas p' k x) /\
  (forall l x y w, mhas p 1 l -> layer_weight p l x y w <-> layer_weight p' l x y w).
Proof.
  intros Hh Hh' Hj Hj'. destruct (C39_json_faithful c dir fi h p Hh) as (j1 & E1 & N & LY & _ & S & C & _). destruct (C39_json_faithful c' dir fi' h' p' Hh') as (j2 & E2 & N' & LY' & _ & S' & C' & _).
  assert (j1 = j) as -> by congruence. assert (j2 = j) as -> by congruence.
  assert (forall k x, k <= 1 -> mhas p k x <-> mhas p' k x) as Hhas.
  { intros [|[|k]] x Hk; [| |lia]; [by rewrite <- (proj2 N x), <- (proj2 N' x)|by rewrite <- (proj2 LY x), <- (proj2 LY' x)]. }
  split; [done|].
  assert (forall c fi h p, mhist [c] dir 0 fi h p -> forall l, mhas p 1 l -> exists w : name -> name -> Z, (forall x y, layer_weight p l x y (w x y)) /\ (dir = false -> forall x y, w x y = w y x)) as Hfun.
  { clear. intros c fi h p Hh l Hl. pose proof (mhist_inv _ _ _ _ _ _ Hh) as H. pose proof (pinv_asp _ _ _ _ _ _ H) as Has.
    destruct (lay_pA p (LBare l) (pi_wf _ _ _ _ _ _ H)) as [m Hm]; [split; [done|by apply psl_mhas]|done|].
    exists (fun x y => get_link m [x; y]). split; [intros x y; unfold layer_weight, agetitem; by rewrite Hm|].
    intros Hd x y. destruct (pi_view _ _ _ _ _ _ H _ _ Hm) as (g & Hg & _). destruct (hist_inv _ _ _ _ _ _ Hg) as [_ HwL Hma _ Hmd _].
    change (weight m [x] [y] = weight m [y] [x]). rewrite !weight_rd by done. unfold rd. rewrite (wfL_sym m HwL); [done|congruence]. }
  intros l x y w Hl. pose proof (proj1 (Hhas 1 l ltac:(lia)) Hl) as Hl'.
  destruct (Hfun _ _ _ _ Hh l Hl) as (W & HW & Hsym). destruct (Hfun _ _ _ _ Hh' l Hl') as (W' & HW' & Hsym').
  assert (forall a b v, layer_weight p l a b v <-> v = W a b) as Hiff. { intros a b v. unfold layer_weight in *. rewrite HW. split; congruence. }
  assert (forall a b v, layer_weight p' l a b v <-> v = W' a b) as Hiff'. { intros a b v. unfold layer_weight in *. rewrite HW'. split; congruence. }
  assert (forall a b, W a b <> 0%Z -> W' a b = W a b) as H1.
  { intros a b Hnz. destruct (C l a b (W a b) (HW a b) Hnz) as (q & Hq & Hqw & Hd). destruct (S' q Hq) as (l1 & a1 & b1 & Hd1 & Hw1 & _). rewrite Hqw in Hw1.
    destruct Hd as [(D1 & D2 & D3)|[Hdir (D1 & D2 & D3)]]; destruct Hd1 as (G1 & G2 & G3).
    - assert (l1 = l) as -> by congruence. assert (a1 = a) as -> by congruence. assert (b1 = b) as -> by congruence. by apply Hiff' in Hw1.
    - assert (l1 = l) as -> by congruence. assert (a1 = b) as -> by congruence. assert (b1 = a) as -> by congruence. apply Hiff' in Hw1. by rewrite (Hsym' Hdir a b). }
  assert (forall a b, W' a b <> 0%Z -> W a b = W' a b) as H2.
  { intros a b Hnz. destruct (C' l a b (W' a b) (HW' a b) Hnz) as (q & Hq & Hqw & Hd). destruct (S q Hq) as (l1 & a1 & b1 & Hd1 & Hw1 & _). rewrite Hqw in Hw1.
    destruct Hd as [(D1 & D2 & D3)|[Hdir (D1 & D2 & D3)]]; destruct Hd1 as (G1 & G2 & G3).
    - assert (l1 = l) as -> by congruence. assert (a1 = a) as -> by congruence. assert (b1 = b) as -> by congruence. by apply Hiff in Hw1.
    - assert (l1 = l) as -> by congruence. assert (a1 = b) as -> by congruence. assert (b1 = a) as -> by congruence. apply Hiff in Hw1. by rewrite (Hsym Hdir a b). }
  rewrite Hiff, Hiff'. assert (W x y = W' x y) as ->; [|done].
  destruct (decide (W x y = 0%Z)) as [Hz|Hnz]; [|by rewrite H1]. destruct (decide (W' x y = 0%Z)) as [Hz'|Hnz']; [congruence|by rewrite H2].
Qed.
(** Whether the network is directed is not written. *)
Theorem C39_direction_lost_refuted : exists h h' p p', mhist [CCat 1] true 0 true h p /\ mhist [CCat 1] false 0 true h' p' /\
  write_json p = write_json p' /\ layer_weight p sa n2 n1 0 /\ layer_weight p' sa n2 n1 5.
Proof.
  pose (e := mcalls (new_mpx [CCat 1] true 0 true) [MSet [n1; n2; sa] 5]). pose (e' := mcalls (new_mpx [CCat 1] false 0 true) [MSet [n1; n2; sa] 5]).
  exists e.1, e'.1, e.2, e'.2. split; [apply mcalls_hist|]. split; [apply mcalls_hist|]. by vm_compute.
Qed.
(** ** C59: edge files *)
(** One file per layer, with one row per link. *)
Theorem C59_write_edge_files c dir fi h p : mhist [c] dir 0 fi h p ->
  exists files, write_edge_files p false = Ok files /\ lists_exactly (files.*1) (mhas p 1) /\
    forall l rows, (l, rows) ∈ files -> lists_links dir p l rows.
Proof.
  intros Hh. pose proof (mhist_inv _ _ _ _ _ _ Hh) as H. pose proof (pinv_asp _ _ _ _ _ _ H) as Has.
  destruct (layers_links c dir fi h p (fun _ (e : list name * Z) => match e.1 with [x; y] => Ok (x, y, e.2) | _ => Err IndexError end) (fun _ q => q) Hh) as (ls & L & Hls & Hlse & HL & _ & Hrun).
  { done. }
  exists ((fun l => (l, L l)) <$> ls). split; [|split].
  - unfold write_edge_files. rewrite decide_True by done. rewrite Hls. cbn [rbind]. apply rmapM_Ok_iff. intros l Hl. specialize (Hrun l Hl).
    destruct (intra p (LBare l)) as [m|]; [|done]. cbn [rbind] in *. rewrite Hrun. cbn [rbind]. by rewrite list_fmap_id.
  - rewrite <- list_fmap_compose. replace ((fst ∘ (fun l => (l, L l))) <$> ls) with ls; [done|]. symmetry. apply list_fmap_id.
  - intros l rows (l' & [= -> ->] & Hl)%elem_of_list_fmap. by apply HL.
Qed.
(** With numbered nodes: the numbers are positions in the list of nodes, so no two nodes
    share one. *)
Theorem C59_numeric_nodes c dir fi h p : mhist [c] dir 0 fi h p ->
  exists nodes files nfiles, lists_exactly nodes (mhas p 0) /\ write_edge_files p false = Ok files /\ write_edge_files p true = Ok nfiles /\
    Forall2 (fun f g => f.1 = g.1 /\ Forall2 (fun r s => exists i j : nat, s = (NInt (Z.of_nat i), NInt (Z.of_nat j), r.2) /\
      nodes !! i = Some (r.1.1) /\ nodes !! j = Some (r.1.2)) (f.2) (g.2)) files nfiles.
Proof.
  intros Hh. pose proof (mhist_inv _ _ _ _ _ _ Hh) as H. pose proof (pinv_asp _ _ _ _ _ _ H) as Has.
  set (num := fun x => NInt (Z.of_nat (pos (mnodes p) x))).
  destruct (layers_links c dir fi h p (fun _ (e : list name * Z) => match e.1 with
     | [x; y] => let? s := index_of (mnodes p) x in let? t := index_of (mnodes p) y in Ok (x, y, e.2, (NInt (Z.of_nat s), NInt (Z.of_nat t), e.2)) | _ => Err IndexError end)
     (fun _ q => (q, (num (q.1.1), num (q.1.2), q.2))) Hh) as (ls & L & Hls & Hlse & HL & Hnod & Hrun).
  { intros l x y w _ Hx Hy. cbn [fst snd]. by rewrite (proj1 (index_pos _ _ Hx)), (proj1 (index_pos _ _ Hy)). }
  assert (forall l, l ∈ ls -> exists m, intra p (LBare l) = Ok m /\
     rmapM (fun e : list name * Z => match e.1 with [x; y] => Ok (x, y, e.2) | _ => Err IndexError end) (edges m) = Ok (L l) /\
     rmapM (fun e : list name * Z => match e.1 with [x; y] => let? s := index_of (mnodes p) x in let? t := index_of (mnodes p) y in Ok (NInt (Z.of_nat s), NInt (Z.of_nat t), e.2) | _ => Err IndexError end) (edges m)
       = Ok ((fun q => (num (q.1.1), num (q.1.2), q.2)) <$> L l)) as Hboth.
  { intros l Hl. specialize (Hrun l Hl). destruct (intra p (LBare l)) as [m|]; [|done]. exists m. split; [done|]. cbn [rbind] in Hrun. clear -Hrun.
    revert Hrun. generalize (edges m). generalize (L l). clear. intros K E. revert K. induction E as [|[[|x [|y [|]]] w] E IH]; intros K HK; simpl in HK; try done.
    - destruct K; [done|]. by injection HK.
    - simpl. destruct (index_of (mnodes p) x) as [s|]; [|done]. destruct (index_of (mnodes p) y) as [t|]; [|done]. cbn [rbind] in *.
      destruct (rmapM _ E) as [ys|] eqn:EE; [|done]. destruct K as [|[[kx ky] kw] K]; [done|]. cbn in HK. injection HK. intros. subst.
      destruct (IH K eq_refl) as [IH1 IH2]. rewrite IH1, IH2. cbn [rbind fst snd fmap list_fmap]. unfold num. 
      split; congruence. }
  exists (mnodes p), ((fun l => (l, L l)) <$> ls), ((fun l => (l, (fun q => (num (q.1.1), num (q.1.2), q.2)) <$> L l)) <$> ls). split; [|split; [|split]].
  - split; [|intros x; by rewrite <- psl_mhas, mnodes_psl]. unfold mnodes. destruct (mslices p !! 0) as [s|] eqn:E; [|constructor]. simpl.
    pose proof (pw_nd p (pi_wf _ _ _ _ _ _ H)) as Hnd. rewrite Forall_forall in Hnd. apply Hnd. by eapply elem_of_list_lookup_2.
  - unfold write_edge_files. rewrite decide_True by done. rewrite Hls. cbn [rbind]. apply rmapM_Ok_iff. intros l Hl. destruct (Hboth l Hl) as (m & -> & H1 & _). cbn [rbind]. by rewrite H1.
  - unfold write_edge_files. rewrite decide_True by done. rewrite Hls. cbn [rbind]. apply rmapM_Ok_iff. intros l Hl. destruct (Hboth l Hl) as (m & -> & _ & H2). cbn [rbind]. by rewrite H2.
  - assert (forall ls', (forall l, l ∈ ls' -> l ∈ ls) -> Forall2 (fun f g => f.1 = g.1 /\ Forall2 (fun r s => exists i j : nat, s = (NInt (Z.of_nat i), NInt (Z.of_nat j), r.2) /\
      mnodes p !! i = Some (r.1.1) /\ mnodes p !! j = Some (r.1.2)) (f.2) (g.2)) ((fun l => (l, L l)) <$> ls') ((fun l => (l, (fun q => (num (q.1.1), num (q.1.2), q.2)) <$> L l)) <$> ls')) as Hg; [|by apply Hg].
    induction ls' as [|l ls' IH]; intros Hsub; [constructor|]. cbn [fmap list_fmap]. constructor; [|apply IH; intros; apply Hsub; by right]. split; [done|]. cbn [snd].
    assert (forall x y w, (x, y, w) ∈ L l -> x ∈ mnodes p /\ y ∈ mnodes p) as Hn'. { intros x y w. apply Hnod. apply Hsub. left. }
    revert Hn'. generalize (L l) as K. clear. induction K as [|[[x y] w] K IH]; intros Hn'; [constructor|]. cbn [fmap list_fmap]. constructor; [|apply IH; intros ? ? ? ?; eapply Hn'; by right].
    destruct (Hn' x y w ltac:(left)) as [Hx Hy]. exists (pos (mnodes p) x), (pos (mnodes p) y). split; [done|]. simpl. split; by apply index_pos.
Qed.
Definition line := (Z * Z * Z * Z)%type.
(** The line is about the pair [x], [y] on layer [l]. *)
Definition line_for (dir : bool) (ln : line) (l x y : name) (w : Z) : Prop :=
  let '(zl, zx, zy, zw) := ln in l = NInt zl /\ w = zw /\ (x = NInt zx /\ y = NInt zy \/ dir = false /\ x = NInt zy /\ y = NInt zx).
(** [w] is the weight on the last line about the pair, or 0. *)
Definition last_line (dir : bool) (lines : list line) (l x y : name) (w : Z) : Prop :=
  (exists l1 ln l2, lines = l1 ++ ln :: l2 /\ line_for dir ln l x y w /\ forall ln' w', ln' ∈ l2 -> ~ line_for dir ln' l x y w') \/
  (w = 0%Z /\ forall ln' w', ln' ∈ lines -> ~ line_for dir ln' l x y w').
Definition line_call (ln : line) : call := let '(l, x, y, w) := ln in (MSet [NInt x; NInt y; NInt l] w, Ok tt).
Definition no_self (ln : line) : Prop := let '(l, x, y, w) := ln in x <> y.
Global Instance no_self_dec ln : Decision (no_self ln).
Proof. destruct ln as [[[??]?]?]. simpl. apply _. Defined.
Lemma names3 c r l a b : names_link 1 [c; r; l] a b <-> a = [c; l] /\ b = [r; l].
Proof. split; [intros Hn; inversion Hn as [? ? ? H1|]; subst; simpl in *; [lia|done]|intros [-> ->]; by apply (names_short 1 c r [l])]. Qed.
Lemma read_run c dir fi ignore lines : (ignore = true \/ Forall no_self lines) -> forall h p, mhist [c] dir 0 fi h p ->
  exists p', rfold (fun p (ln : line) => let '(l, x, y, w) := ln in
    if negb (bool_decide (x = y)) || negb ignore then out_res (psetitem p [NInt x; NInt y; NInt l] w) else Ok p) p lines = Ok p' /\
    mhist [c] dir 0 fi (h ++ (line_call <$> filter no_self lines)) p'.
Proof.
  induction lines as [|[[[l x] y] w] lines IH]; intros Hi h p Hh; [exists p; by rewrite app_nil_r|]. cbn [rfold].
  assert (ignore = true \/ Forall no_self lines) as Hi'. { destruct Hi as [?|Hi]; [by left|right]. by apply Forall_cons in Hi as [_ ?]. }
  destruct (decide (x = y)) as [Hxy|Hxy].
  - destruct Hi as [->|Hi]; [|by apply Forall_cons in Hi as [? _]]. rewrite bool_decide_true by done. cbn [negb orb rbind]. rewrite filter_cons, decide_False by (simpl; tauto). by apply IH.
  - rewrite bool_decide_false by done. cbn [negb orb]. rewrite filter_cons, decide_True by done.
    destruct (mstep p (MSet [NInt x; NInt y; NInt l] w)) as [p1 r] eqn:E.
    destruct (C21_accepted_write _ _ _ _ _ _ _ [NInt x; NInt l] [NInt y; NInt l] _ _ _ Hh ltac:(simpl; lia) (proj2 (names3 _ _ _ _ _) (conj eq_refl eq_refl)) eq_refl ltac:(intros [= ?]; congruence) E) as [-> _].
    pose proof (mhist_op _ _ _ _ _ _ _ _ _ Hh E) as Hh1. simpl in E. unfold out_res at 1. rewrite E. cbn [rbind fst snd].
    destruct (IH Hi' _ _ Hh1) as (p' & -> & Hp'). exists p'. split; [done|]. by rewrite <- app_assoc in Hp'.
Qed.
Lemma line_assigns dir ln l x y w : massigns 1 dir (line_call ln) (LBare l) x y w <-> line_for dir ln l x y w.
Proof.
  destruct ln as [[[zl zx] zy] zw]. unfold massigns, mwrites. simpl. rewrite !names3. split.
  - intros [(_ & -> & E1 & E2)|(-> & _ & -> & E1 & E2)]; injection E1 as -> ->; injection E2 as ->; auto 6.
  - intros (-> & -> & [[-> ->]|(-> & -> & ->)]); [by left|by right].
Qed.
Lemma last_line_mlast dir lines l x y w : x <> y -> last_line dir lines l x y w -> mlast 1 dir (line_call <$> filter no_self lines) (LBare l) x y w.
Proof.
  intros Hxy [(l1 & ln & l2 & -> & Hl & Hlast)|[-> Hz]].
  - left. exists (line_call <$> filter no_self l1), (line_call ln), (line_call <$> filter no_self l2). split; [|split].
    + rewrite filter_app, filter_cons, decide_True; [by rewrite fmap_app|]. destruct ln as [[[zl zx] zy] zw]. simpl in *. intros ->. destruct Hl as (_ & _ & [[-> ->]|(_ & -> & ->)]); done.
    + by apply line_assigns.
    + intros e w' (ln' & -> & Hln')%elem_of_list_fmap. rewrite line_assigns. apply elem_of_list_filter in Hln' as [_ ?]. by apply Hlast.
  - right. split; [done|]. intros e w' (ln' & -> & Hln')%elem_of_list_fmap. rewrite line_assigns. apply elem_of_list_filter in Hln' as [_ ?]. by apply Hz.
Qed.
Global Instance line_for_dec dir ln l x y w : Decision (line_for dir ln l x y w).
Proof. destruct ln as [[[??]?]?]. simpl. apply _. Defined.
Lemma last_line_exists dir lines l x y : exists w, last_line dir lines l x y w.
Proof.
  induction lines as [|ln lines [w [(l1 & ln' & l2 & -> & Hl & Hlast)|[-> Hz]]]].
  - exists 0%Z. right. split; [done|]. by intros ? ? ?%elem_of_nil.
  - exists w. left. by exists (ln :: l1), ln', l2.
  - destruct (decide (line_for dir ln l x y (ln.2))) as [Hl|Hl].
    + exists (ln.2). left. by exists [], ln, lines.
    + exists 0%Z. right. split; [done|]. intros ln' w' [->|Hin]%elem_of_cons; [|by apply Hz]. intros Hl'. apply Hl. destruct ln as [[[??]?]?]. simpl in *. tauto.
Qed.
(** The links of the network read are those of the lines; nodes and layers are created by
    the lines that are not self-links. *)
Theorem C59_read_edge_files c dir fi lines ignore : (ignore = true \/ forall l x y w, (l, x, y, w) ∈ lines -> x <> y) ->
  exists h p, read_edge_files lines c fi dir ignore = Ok p /\ mhist [c] dir 0 fi h p /\
    (forall l x y w, x <> y -> mreads p [x; l] [y; l] w <-> last_line dir lines l x y w) /\
    (forall l, mhas p 1 l <-> exists zl zx zy zw, (zl, zx, zy, zw) ∈ lines /\ zx <> zy /\ l = NInt zl) /\
    (forall x, mhas p 0 x <-> exists zl zx zy zw, (zl, zx, zy, zw) ∈ lines /\ zx <> zy /\ (x = NInt zx \/ x = NInt zy)).
Proof.
  intros Hi. destruct (read_run c dir fi ignore lines) with (h := @nil call) (p := new_mpx [c] dir 0 fi) as (p & E & Hp).
  { destruct Hi as [->|Hi]; [by left|right]. apply Forall_forall. intros [[[l x] y] w] Hl. by eapply Hi. }
  { constructor. }
  set (h := [] ++ (line_call <$> filter no_self lines)) in Hp. exists h, p. split; [done|]. split; [done|].
  assert (forall l x y w, x <> y -> mreads p [x; l] [y; l] w <-> mlast 1 dir h (LBare l) x y w) as Hr.
  { intros l x y w Hxy. exact (C17_read_last_write _ _ _ _ _ Hp (LBare l) x y w eq_refl Hxy). }
  assert (forall k x, mhas p k x <-> exists zl zx zy zw, (zl, zx, zy, zw) ∈ lines /\ zx <> zy /\ ([NInt zx; NInt zl] !! k = Some x \/ [NInt zy; NInt zl] !! k = Some x)) as Hk.
  { intros k x. rewrite (C51_nodes_layers_exact _ _ _ _ _ _ Hp ltac:(simpl; lia)). unfold h. simpl app. split.
    - intros (e & ([[[zl zx] zy] zw] & -> & [Hns Hin]%elem_of_list_filter)%elem_of_list_fmap & Hm). exists zl, zx, zy, zw. split; [done|]. split; [done|].
      simpl in Hm. destruct Hm as (a & b & w & [_ Hn] & Hor). by apply names3 in Hn as [-> ->].
    - intros (zl & zx & zy & zw & Hin & Hns & Hor). exists (line_call (zl, zx, zy, zw)). split; [apply elem_of_list_fmap_1, elem_of_list_filter; done|].
      simpl. exists [NInt zx; NInt zl], [NInt zy; NInt zl], zw. split; [|done]. split; [done|]. by apply names3. }
  split; [|split].
  - intros l x y w Hxy. rewrite Hr by done. split.
    + intros Hl. destruct (last_line_exists dir lines l x y) as [w' Hw']. pose proof (last_line_mlast dir lines l x y w' Hxy Hw') as Hl'.
      apply (mlast_iff 1 dir h (LBare l) x y w eq_refl Hxy) in Hl. apply (mlast_iff 1 dir h (LBare l) x y w' eq_refl Hxy) in Hl'. congruence.
    + by apply last_line_mlast.
  - intros l. rewrite Hk. split.
    + intros (zl & zx & zy & zw & ? & ? & [[= <-]|[= <-]]); by exists zl, zx, zy, zw.
    + intros (zl & zx & zy & zw & ? & ? & ->). exists zl, zx, zy, zw. auto.
  - intros x. rewrite Hk. split.
    + intros (zl & zx & zy & zw & ? & ? & [[= <-]|[= <-]]); exists zl, zx, zy, zw; auto.
    + intros (zl & zx & zy & zw & ? & ? & [-> | ->]); exists zl, zx, zy, zw; auto.
Qed.
(** A self-link raises if it is not to be ignored. *)
Theorem C59_self_link_raises c dir fi lines l x w : (l, x, x, w) ∈ lines -> read_edge_files lines c fi dir false = Err KeyError.
Proof.
  unfold read_edge_files. assert (mhist [c] dir 0 fi [] (new_mpx [c] dir 0 fi)) as Hh by constructor. revert Hh. generalize (new_mpx [c] dir 0 fi) as p. generalize (@nil call) as h.
  induction lines as [|[[[l' x'] y'] w'] lines IH]; intros h p Hh Hin; [by apply elem_of_nil in Hin|]. cbn [rfold]. rewrite orb_true_r.
  destruct (mstep p (MSet [NInt x'; NInt y'; NInt l'] w')) as [p1 r] eqn:E. pose proof E as E'. simpl in E'. unfold out_res at 1. rewrite E'. cbn [snd fst].
  destruct (decide (x' = y')) as [->|Hxy].
  - destruct (C21_rejected_write _ _ _ _ _ _ _ [NInt y'; NInt l'] [NInt y'; NInt l'] _ _ _ Hh ltac:(simpl; lia) (proj2 (names3 _ _ _ _ _) (conj eq_refl eq_refl)) ltac:(simpl; tauto) E) as [-> _]. done.
  - destruct (C21_accepted_write _ _ _ _ _ _ _ [NInt x'; NInt l'] [NInt y'; NInt l'] _ _ _ Hh ltac:(simpl; lia) (proj2 (names3 _ _ _ _ _) (conj eq_refl eq_refl)) eq_refl ltac:(intros [= ?]; congruence) E) as [-> _].
    cbn [rbind]. apply elem_of_cons in Hin as [[= -> -> -> ->]|Hin]; [done|]. eapply IH; [|done]. by eapply mhist_op.
Qed.
(** The rows written, with the layer in front, read back. *)
Theorem C59_round_trip c c' dir fi fi' h p files lines : mhist [c] dir 0 fi h p ->
  write_edge_files p false = Ok files ->
  (forall zl zx zy zw, (zl, zx, zy, zw) ∈ lines <-> exists rows, (NInt zl, rows) ∈ files /\ (NInt zx, NInt zy, zw) ∈ rows) ->
  (forall k x, mhas p k x -> exists z, x = NInt z) ->
  exists p', read_edge_files lines c' fi' dir true = Ok p' /\
    forall l x y w, x <> y -> mreads p' [x; l] [y; l] w <-> mreads p [x; l] [y; l] w.
Proof.
  intros Hh Hf Hlines Hint. destruct (C59_write_edge_files c dir fi h p Hh) as (files' & Hf' & Hfl & Hrows). rewrite Hf in Hf'. injection Hf' as <-.
  destruct (C59_read_edge_files c' dir fi' lines true (or_introl eq_refl)) as (h' & p' & Hr & Hp' & Hreads & _). exists p'. split; [done|].
  intros l x y w Hxy. rewrite Hreads by done. pose proof (mhist_inv _ _ _ _ _ _ Hh) as H. pose proof (pinv_asp _ _ _ _ _ _ H) as Has.
  assert (exists v, forall v', mreads p [x; l] [y; l] v' <-> v' = v) as [v Hv].
  { pose proof (fun v' => mreads_intra _ _ _ _ _ _ (LBare l) x y v' H eq_refl Hxy) as Hmi. destruct (pA p (LBare l)) eqn:Hm; eexists; intros v'; exact (Hmi v'). }
  assert (forall v' z, line_for dir z l x y v' -> z ∈ lines -> v' = v) as Hsound.
  { intros v' [[[zl zx] zy] zw] (-> & -> & Hor) Hz. apply Hlines in Hz as (rows & Hrf & Hz). destruct (Hrows _ _ Hrf) as (_ & Hs & _). destruct (Hs _ _ _ Hz) as [Hw _].
    assert (NInt zl ∈ files.*1) as Hl by (apply elem_of_list_fmap; by exists (NInt zl, rows)). apply Hfl in Hl.
    assert (LBare (NInt zl) ∈ mlayers p) as Hly. { apply (C51_layers_exact _ _ _ _ _ _ Hh ltac:(simpl; lia)). split; [done|]. intros [|k] a; simpl; [by intros [= <-]|by rewrite lookup_nil]. }
    assert (forall a b u, layer_weight p (NInt zl) a b u -> dir = false -> layer_weight p (NInt zl) b a u) as Hsym.
    { intros a b u Ha ->. unfold layer_weight, agetitem in *. destruct (pA p (LBare (NInt zl))) as [m|] eqn:Hm; [|done]. simpl in *. injection Ha as <-. f_equal.
      destruct (pi_view _ _ _ _ _ _ H _ _ Hm) as (g & Hg & _). destruct (hist_inv _ _ _ _ _ _ Hg) as [_ HwL Hma _ Hmd _].
      change (weight m [b] [a] = weight m [a] [b]). rewrite !weight_rd by done. unfold rd. by rewrite (wfL_sym m HwL Hmd). }
    apply Hv. apply (C17_read_through_layer _ _ _ _ _ _ Hh (LBare (NInt zl)) x y zw Hly Hxy).
    destruct Hor as [[-> ->]|(Hd & -> & ->)]; [done|]. apply (Hsym _ _ _ Hw Hd). }
  assert (v <> 0%Z -> exists z, z ∈ lines /\ line_for dir z l x y v) as Hcomp.
  { intros Hnz. assert (mreads p [x; l] [y; l] v) as Hmr by (by apply Hv).
    assert (mhas p 1 l) as Hl.
    { apply (mreads_intra _ _ _ _ _ _ (LBare l) x y v H eq_refl Hxy) in Hmr. destruct (pA p (LBare l)) as [m|] eqn:Hm; [|done]. apply pA_lay in Hm as [[_ ?] _]; [|apply H]. by apply psl_mhas. }
    assert (LBare l ∈ mlayers p) as Hly. { apply (C51_layers_exact _ _ _ _ _ _ Hh ltac:(simpl; lia)). split; [done|]. intros [|k] a; simpl; [by intros [= <-]|by rewrite lookup_nil]. }
    apply (C17_read_through_layer _ _ _ _ _ _ Hh (LBare l) x y v Hly Hxy) in Hmr. pose proof Hl as Hl0. apply Hfl in Hl0. apply elem_of_list_fmap in Hl0 as ([l0 rows] & -> & Hrf). simpl in *.
    destruct (Hrows _ _ Hrf) as (_ & _ & Hc & _). destruct (Hint 1 l0 Hl) as [zl ->].
    destruct (layer_links c dir fi h p (NInt zl) Hh Hl) as (m & Hm & He & HLL & Hnod).
    assert (x ∈ mnodes p /\ y ∈ mnodes p) as [Hx Hy].
    { destruct HLL as (_ & _ & Hc' & _). assert (forall a b u, (a, b, u) ∈ triple <$> edges m -> a ∈ mnodes p /\ b ∈ mnodes p) as Ht.
      { intros a b u (e & Ee & Hee)%elem_of_list_fmap. destruct (He e Hee) as (a' & b' & u' & ->). unfold triple in Ee. simpl in Ee. injection Ee as -> -> ->. by eapply Hnod. }
      destruct (Hc' x y v Hmr Hnz) as [Ha|[_ Ha]]; apply Ht in Ha; tauto. }
    apply mnodes_psl, psl_mhas in Hx, Hy. destruct (Hint 0 x Hx) as [zx ->]. destruct (Hint 0 y Hy) as [zy ->].
    destruct (Hc _ _ _ Hmr Hnz) as [Hin|[Hd Hin]].
    - exists (zl, zx, zy, v). split; [apply Hlines; by exists rows|]. simpl. auto.
    - exists (zl, zy, zx, v). split; [apply Hlines; by exists rows|]. simpl. auto 6. }
  rewrite Hv. split.
  - intros [(l1 & ln & l2 & -> & Hln & _)|[-> Hz]].
    + apply (Hsound w ln Hln). apply elem_of_app. right. left.
    + destruct (decide (v = 0%Z)) as [->|Hnz]; [done|]. destruct (Hcomp Hnz) as (z & Hz1 & Hz2). by destruct (Hz z v Hz1).
  - intros ->. destruct (last_line_exists dir lines l x y) as [w' Hw']. pose proof Hw' as Hw0. destruct Hw' as [(l1 & ln & l2 & El & Hln & _)|[-> Hz]].
    + assert (w' = v) as <-; [|done]. apply (Hsound w' ln Hln). rewrite El. apply elem_of_app. right. left.
    + destruct (decide (v = 0%Z)) as [->|Hnz]; [done|]. destruct (Hcomp Hnz) as (z & Hz1 & Hz2). by destruct (Hz z v Hz1).
Qed.

(** ** The hypotheses are met *)
(** A function for [matrices], when every field is a number. *)
Definition Mof (n : nat) (rows : list (string * list field)) (k i j : nat) : Z :=
  default 0%Z (rows !! (k * n + i) ≫= fun r => r.2 !! j ≫= snd).
Lemma matrices_of n rl cl rows : Forall (fun r : string * list field => Forall (fun f : field => is_Some (f.2)) (r.2)) rows ->
  matrices n rl cl rows (Mof n rows).
Proof.
  intros Hr k i j row f x y Hi Hrow Hf _ _ _. rewrite Forall_forall in Hr. pose proof (elem_of_list_lookup_2 _ _ _ Hrow) as Hin. apply Hr in Hin. rewrite Forall_forall in Hin.
  destruct (Hin f) as [v Hv]; [by eapply elem_of_list_lookup_2|]. unfold Mof. rewrite Hrow. simpl. rewrite Hf. simpl. by rewrite Hv.
Qed.
Definition fd (z : Z) : field := (""%string, Some z).
Definition ex_row (s : string) (zs : list Z) : string * list field := (s, fd <$> zs).
(** Three nodes, two matrices; the second row of the first matrix is on two lines, and a
    blank line ends the file. *)
Definition ex_rows : list (string * list field) :=
  [ex_row "a" [0; 2; 0]; ex_row "b" [3; 0; 0]; ex_row "c" [0; 0; 7]; ex_row "a" [0; 0; 0]; ex_row "b" [0; 0; 4]; ex_row "c" [0; 4; 0]]%Z.
Definition ex_lines : list (list field) :=
  [fd <$> [0; 2; 0]; fd <$> [3]; fd <$> [0; 0]; fd <$> [0; 0; 7]; fd <$> [0; 0; 0]; fd <$> [0; 0; 4]; fd <$> [0; 4; 0]; []]%Z.
Lemma one_line n r : length (r.2) = n -> 0 < n -> row_lines n false r [r.2].
Proof. intros Hl Hn. by exists [], (r.2), None. Qed.
Example C38_several_matrices_ok : ufile 3 2 None None None (Some [sa; sb]) false ex_lines [sa; sb] (irange 3) (irange 3) ex_rows /\
  matrices 3 (irange 3) (irange 3) ex_rows (Mof 3 ex_rows) /\
  (forall l, l ∈ [sa; sb] -> exists x y, x <> y /\ connected 3 2 [sa; sb] (irange 3) (irange 3) (Mof 3 ex_rows) l x y).
Proof.
  split; [|split].
  - split; [done|]. split; [simpl; lia|]. split; [simpl; lia|]. split; [done|]. split; [done|]. split; [by left|]. split; [done|]. split; [done|].
    exists [[fd <$> [0; 2; 0]]; [fd <$> [3]; fd <$> [0; 0]]; [fd <$> [0; 0; 7]]; [fd <$> [0; 0; 0]]; [fd <$> [0; 0; 4]]; [fd <$> [0; 4; 0]]]%Z, [[]]. split; [|split; [done|right; simpl; lia]].
    constructor; [apply (one_line 3 (ex_row "a" [0; 2; 0]%Z)); simpl; lia|].
    constructor; [exists [fd <$> [3%Z]], (fd <$> [0; 0]%Z), None; split; [done|]; split; [simpl; lia|done]|].
    constructor; [apply (one_line 3 (ex_row "c" [0; 0; 7]%Z)); simpl; lia|].
    constructor; [apply (one_line 3 (ex_row "a" [0; 0; 0]%Z)); simpl; lia|].
    constructor; [apply (one_line 3 (ex_row "b" [0; 0; 4]%Z)); simpl; lia|].
    constructor; [apply (one_line 3 (ex_row "c" [0; 4; 0]%Z)); simpl; lia|]. constructor.
  - apply matrices_of. apply (bool_decide_eq_true_1 _). by vm_compute.
  - intros l [->|[->|[]%elem_of_nil]%elem_of_cons]%elem_of_cons.
    + exists (NInt 0), (NInt 1). split; [done|]. exists 0, 0, 1. split; [|by vm_compute]. split; [lia|]. split; [lia|]. split; [done|]. by left.
    + exists (NInt 1), (NInt 2). split; [done|]. exists 1, 1, 2. split; [|by vm_compute]. split; [lia|]. split; [lia|]. split; [done|]. by left.
Qed.
(** The second entry overwrites the first: the link reads 3. *)
Example C38_several_matrices_run : match read_ucinet 3 2 None None None (Some [sa; sb]) false ex_lines (CCat 1) true with
  | Ok (inr p) => (pgetitem p [NInt 0; NInt 1; sa], pgetitem p [NInt 2; NInt 1; sb]) | _ => (Err KeyError, Err KeyError) end = (Ok 3%Z, Ok 4%Z).
Proof. by vm_compute. Qed.
(** The same matrices with embedded labels, one row per line. *)
Definition ex_elines : list (list field) :=
  [("x", None); ("y", None); ("z", None)]%string :: ((fun r : string * list field => (r.1, None) :: r.2) <$> take 3 ex_rows).
Example C38_one_matrix_ok : ufile 3 1 None None None None true ex_elines (irange 1) [NStr "a"; NStr "b"; NStr "c"] [NStr "x"; NStr "y"; NStr "z"] (take 3 ex_rows) /\
  matrices 3 [NStr "a"; NStr "b"; NStr "c"] [NStr "x"; NStr "y"; NStr "z"] (take 3 ex_rows) (Mof 3 (take 3 ex_rows)).
Proof.
  split; [|apply matrices_of; apply (bool_decide_eq_true_1 _); by vm_compute].
  split; [done|]. split; [simpl; lia|]. split; [simpl; lia|]. split; [done|]. split; [done|]. split; [done|]. split; [done|]. split; [done|].
  exists [("x", None); ("y", None); ("z", None)]%string, ((fun r : string * list field => (r.1, None) :: r.2) <$> take 3 ex_rows).
  split; [done|]. split; [done|]. split; [done|].
  exists ((fun r : string * list field => [(r.1, None) :: r.2]) <$> take 3 ex_rows), []. split; [|split; [done|by left]].
  assert (forall r : string * list field, length (r.2) = 3 -> row_lines 3 true r [(r.1, None) :: r.2]) as Hrl.
  { intros r Hr. exists [], ((r.1, None) :: r.2), None. split; [done|]. split; [simpl; lia|done]. }
  simpl. constructor; [by apply (Hrl (ex_row "a" [0; 2; 0]%Z))|]. constructor; [by apply (Hrl (ex_row "b" [3; 0; 0]%Z))|].
  constructor; [by apply (Hrl (ex_row "c" [0; 0; 7]%Z))|]. constructor.
Qed.
(** A matrix with no links. *)
Example C38_empty_layer_raises_ok : let rows := [ex_row "" [0; 1]; ex_row "" [1; 0]; ex_row "" [5; 0]; ex_row "" [0; 5]]%Z in
  ufile 2 2 None None None None false (rows.*2) (irange 2) (irange 2) (irange 2) rows /\ matrices 2 (irange 2) (irange 2) rows (Mof 2 rows) /\
  (forall x y, x <> y -> ~ connected 2 2 (irange 2) (irange 2) (irange 2) (Mof 2 rows) (NInt 1) x y) /\
  read_ucinet 2 2 None None None None false (rows.*2) (CCat 1) true = Err KeyError.
Proof.
  cbv zeta. split; [|split; [|split]].
  - split; [done|]. split; [simpl; lia|]. split; [simpl; lia|]. split; [done|]. split; [done|]. split; [by left|]. split; [done|]. split; [done|].
    exists [[fd <$> [0; 1]]; [fd <$> [1; 0]]; [fd <$> [5; 0]]; [fd <$> [0; 5]]]%Z, []. split; [|split; [done|by left]].
    constructor; [apply (one_line 2 (ex_row "" [0; 1]%Z)); simpl; lia|]. constructor; [apply (one_line 2 (ex_row "" [1; 0]%Z)); simpl; lia|].
    constructor; [apply (one_line 2 (ex_row "" [5; 0]%Z)); simpl; lia|]. constructor; [apply (one_line 2 (ex_row "" [0; 5]%Z)); simpl; lia|]. constructor.
  - apply matrices_of. apply (bool_decide_eq_true_1 _). by vm_compute.
  - intros x y Hxy (k & i & j & (Hk & Hi & Hl & Hor) & Hnz).
    assert (k = 1) as ->. { destruct k as [|[|k]]; [done|done|lia]. }
    assert (i < 2 /\ j < 2) as [Hi2 Hj2]. { split; [done|]. destruct Hor as [[_ H]|[_ H]]; apply lookup_lt_Some in H; simpl in H; lia. }
    destruct i as [|[|]]; destruct j as [|[|]]; try lia; simpl in Hor; try (by apply Hnz); destruct Hor as [[[= <-] [= <-]]|[[= <-] [= <-]]]; done.
  - by vm_compute.
Qed.
Example C38_connected_iff_ok : NoDup [sa; sb] /\ NoDup (irange 3) /\ length (irange 3) = 3 /\ Mof 3 ex_rows 0 0 1 = 2%Z /\ Mof 3 ex_rows 0 1 0 = 3%Z.
Proof. split; [|split; [|done]]; apply (bool_decide_eq_true_1 _); by vm_compute. Qed.

(** Three nodes, two layers, a directed network. *)
Definition ex_io : mpx := (mcalls (new_mpx [CCat 1] true 0 true) [MSet [n1; n2; n1] 5; MSet [n2; n1; n1] 2; MAddNode n3 None; MSet [n3; n2; n2] 7]).2.
Example C39_ok : exists h, mhist [CCat 1] true 0 true h ex_io /\
  write_json ex_io = Ok {| j_nodes := [n1; n2; n3]; j_layers := [n1; n2]; j_links := [(0, 1, 5%Z, 0); (1, 0, 2%Z, 0); (2, 1, 7%Z, 1)] |}.
Proof. eexists. split; [apply mcalls_hist|]. by vm_compute. Qed.
Definition ex_lns : list line := [(1, 1, 2, 5); (1, 2, 1, 2); (2, 3, 2, 7)]%Z.
Example C59_ok : exists h, mhist [CCat 1] true 0 true h ex_io /\
  write_edge_files ex_io false = Ok [(n1, [(n1, n2, 5%Z); (n2, n1, 2%Z)]); (n2, [(n3, n2, 7%Z)])] /\
  (forall zl zx zy zw, (zl, zx, zy, zw) ∈ ex_lns <-> exists rows, (NInt zl, rows) ∈ [(n1, [(n1, n2, 5%Z); (n2, n1, 2%Z)]); (n2, [(n3, n2, 7%Z)])] /\ (NInt zx, NInt zy, zw) ∈ rows) /\
  (forall k x, mhas ex_io k x -> exists z, x = NInt z).
Proof.
  eexists. split; [apply mcalls_hist|]. split; [by vm_compute|]. split.
  - intros zl zx zy zw. unfold ex_lns. split.
    + intros [[= -> -> -> ->]|[[= -> -> -> ->]|[[= -> -> -> ->]|[]%elem_of_nil]%elem_of_cons]%elem_of_cons]%elem_of_cons.
      * eexists. split; [left|left].
      * eexists. split; [left|right; left].
      * eexists. split; [right; left|left].
    + intros (rows & [[= -> ->]|[[= -> ->]|[]%elem_of_nil]%elem_of_cons]%elem_of_cons & Hr).
      * apply elem_of_cons in Hr as [[= -> -> ->]|[[= -> -> ->]|[]%elem_of_nil]%elem_of_cons]; [left|right; left].
      * apply elem_of_cons in Hr as [[= -> -> ->]|[]%elem_of_nil]. right; right; left.
  - intros k x (s & Hs & Hx)%psl_mhas. assert (mslices ex_io = [[n1; n2; n3]; [n1; n2]]) as E by (by vm_compute). rewrite E in Hs. clear E.
    assert (x ∈ [n1; n2; n3]) as Hx'.
    { destruct k as [|[|k]]; simpl in Hs; [by injection Hs as <-|injection Hs as <-|discriminate Hs]. rewrite !elem_of_cons, elem_of_nil in Hx. destruct Hx as [->|[->|[]]]; [left|right; left]. }
    rewrite !elem_of_cons, elem_of_nil in Hx'. destruct Hx' as [->|[->|[->|[]]]]; by eexists.
Qed.
Example C59_numeric_ok : write_edge_files ex_io true = Ok [(n1, [(NInt 0, NInt 1, 5%Z); (NInt 1, NInt 0, 2%Z)]); (n2, [(NInt 2, NInt 1, 7%Z)])].
Proof. by vm_compute. Qed.
Example C59_read_ok : last_line false ((1, 2, 1, 9) :: (1, 3, 3, 4) :: ex_lns)%Z n1 n1 n2 2.
Proof.
  left. exists [(1, 2, 1, 9); (1, 3, 3, 4); (1, 1, 2, 5)]%Z, (1, 2, 1, 2)%Z, [(2, 3, 2, 7)]%Z. split; [done|]. split; [split; [done|]; split; [done|]; by right|].
  intros ln' w' [->|Hn]%elem_of_cons; [|by apply elem_of_nil in Hn]. by intros [? _].
Qed.

Print Assumptions C38_several_matrices.
Print Assumptions C38_connected_iff.
Print Assumptions C38_empty_layer_raises.
Print Assumptions C38_one_matrix.
Print Assumptions C38_only_complete_files.
Print Assumptions C39_json_faithful.
Print Assumptions C39_json_determines_network.
Print Assumptions C39_direction_lost_refuted.
Print Assumptions C59_write_edge_files.
Print Assumptions C59_numeric_nodes.
Print Assumptions C59_read_edge_files.
Print Assumptions C59_self_link_raises.
Print Assumptions C59_round_trip.
