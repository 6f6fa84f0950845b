(** * Invariants of all histories of a MultilayerNetwork *)
From Verif Require Export NetFacts NetSpec.

(** [x] is an element of slice [k]. *)
Definition sl (n : mlnet) (k : nat) (x : name) : Prop :=
  exists s, slices n !! k = Some s /\ x ∈ s.

Lemma sl_slice_add n i y k x :
  sl (slice_add n i y) k x <-> sl n k x \/ (k = i /\ x = y /\ i < length (slices n)).
Proof.
  unfold sl. setoid_rewrite slice_add_lookup. destruct (decide (k = i)) as [->|Hne].
  - destruct (slices n !! i) as [s|] eqn:E; simpl.
    + apply lookup_lt_Some in E as Hlt. split.
      * intros (s' & [= <-] & Hx). apply elem_of_sadd in Hx as [->|Hx]; [by right|left; eauto].
      * intros [(s' & [= <-] & Hx)|(_ & -> & _)]; exists (sadd y s); (split; [done|]);
          apply elem_of_sadd; auto.
    + apply lookup_ge_None in E. split; [intros (? & ? & ?); done|].
      intros [(? & ? & ?)|(_ & _ & ?)]; [done|lia].
  - naive_solver.
Qed.

Lemma sl_add_elayer n l k n' r j x : wfS n -> add_elayer n l k = (n', r) ->
  (sl n' j x <-> sl n j x \/ (j = k /\ x = l /\ k <= aspects n)) /\ l2n n' = l2n n.
Proof.
  intros Hw. unfold add_elayer. destruct (slices n !! k) as [s|] eqn:E; intros [= <- <-].
  - split; [|done]. rewrite sl_slice_add, (wfS_len _ Hw). apply lookup_lt_Some in E.
    rewrite (wfS_len _ Hw) in E. intuition lia.
  - apply lookup_ge_None in E. rewrite (wfS_len _ Hw) in E. intuition lia.
Qed.

Lemma sl_add_node_loop n p n' r j x : wfS n -> add_node_loop n p = (n', r) ->
  (sl n' j x <-> sl n j x \/ (j = S (p.1) /\ x = p.2 /\ S (p.1) <= aspects n)) /\ l2n n' = l2n n /\
  (r <> Ok tt -> aspects n < S (p.1)).
Proof.
  intros Hw. unfold add_node_loop. destruct (slices n !! S (p.1)) as [s|] eqn:E.
  - apply lookup_lt_Some in E as Hlt. rewrite (wfS_len _ Hw) in Hlt.
    destruct (lin (p.2) s) eqn:El.
    + intros [= <- <-]. apply lin_true in El. split_and!; [|done|done].
      split; [by left|]. intros [?|(-> & -> & _)]; [done|]. unfold sl. eauto.
    + intros H. destruct (sl_add_elayer _ _ _ _ _ j x Hw H). split_and!; [done|done|].
      destruct (add_elayer_wfS _ _ _ _ _ Hw H) as (_ & _ & _ & _ & Hok).
      intros Hr. destruct Hr. apply Hok. lia.
  - intros [= <- <-]. apply lookup_ge_None in E. rewrite (wfS_len _ Hw) in E.
    split_and!; [intuition lia|done|intros _; lia].
Qed.

Lemma sl_add_node_fold n ls o n' r j x : wfS n ->
  ofold add_node_loop n (imap (fun i y => (i + o, y)) ls) = (n', r) ->
  (sl n' j x <-> sl n j x \/ (exists i, ls !! i = Some x /\ j = S (i + o) /\ j <= aspects n)) /\
  l2n n' = l2n n.
Proof.
  revert n o. induction ls as [|y ls IH]; intros n o Hw; cbn [imap ofold].
  - intros [= <- <-]. split; [|done]. split; [by left|]. intros [?|(i & Hi & _)]; [done|].
    by rewrite lookup_nil in Hi.
  - destruct (add_node_loop n (0 + o, y)) as [n1 r1] eqn:E1.
    destruct (sl_add_node_loop _ _ _ _ j x Hw E1) as (Hsl1 & Hl1 & Hf1).
    destruct (add_node_loop_step _ _ _ _ Hw E1) as (Hw1 & Hs1 & _). cbn [fst snd] in *.
    destruct r1 as [[]|e1].
    + intros Hf.
      replace (imap ((fun i y => (i + o, y)) ∘ S) ls) with (imap (fun i y => (i + S o, y)) ls) in Hf.
      2:{ apply imap_ext. intros i z _. simpl. f_equal. lia. }
      destruct (IH n1 (S o) Hw1 Hf) as [Hsl2 Hl2]. split; [|congruence].
      rewrite Hsl2, Hsl1, (se_asp _ _ Hs1). split.
      * intros [[?|(-> & -> & ?)]|(i & Hi & -> & ?)]; [by left| |].
        -- right. exists 0. simpl. split_and!; [done|lia|lia].
        -- right. exists (S i). simpl. split_and!; [done|lia|lia].
      * intros [?|([|i] & Hi & -> & ?)]; [by left; left| |]; simpl in Hi.
        -- left. right. simplify_eq. split_and!; lia || done.
        -- right. exists i. split_and!; [done|lia|lia].
    + intros [= <- <-]. split; [|done]. rewrite Hsl1. specialize (Hf1 ltac:(done)).
      split; [intros [?|(? & ? & ?)]; [by left|lia]|].
      intros [?|(i & ? & ? & ?)]; [by left|lia].
Qed.

Lemma l2nv_eq n n' l : l2n n' = l2n n -> l2nv n' l = l2nv n l.
Proof. intros H. unfold l2nv. by rewrite H. Qed.

Lemma add_node_exact n i lay n' r : wfS n -> add_node n i lay = (n', r) ->
  (forall k x, sl n' k x <-> sl n k x \/ mentions (aspects n) (fic n) (OpAddNode i lay) k x) /\
  (forall l x, x ∈ l2nv n' l <-> x ∈ l2nv n l \/
     (fic n = false /\ x = i /\ lay = Some l /\
      match l with LBare _ => aspects n = 1 | LTup ls => 2 <= aspects n /\ length ls <= aspects n end)).
Proof.
  intros Hw. unfold add_node. cbv zeta.
  pose proof (slice_add_wfS n 0 i Hw) as Hw0.
  assert (forall k x, sl (slice_add n 0 i) k x <-> sl n k x \/ (k = 0 /\ x = i)) as Hsl0.
  { intros k x. rewrite sl_slice_add, (wfS_len _ Hw). intuition lia. }
  unfold mentions.
  destruct lay as [l|].
  2:{ intros [= <- <-]. split; [|naive_solver]. intros k x. rewrite Hsl0. naive_solver. }
  destruct (fic n) eqn:Hf.
  { intros [= <- <-]. split; [|naive_solver]. intros k x. rewrite Hsl0. naive_solver. }
  destruct l as [y|ls].
  - destruct (decide (aspects n = 1%nat)) as [Ha|Ha].
    2:{ intros [= <- <-]. split; [|naive_solver]. intros k x. rewrite Hsl0. naive_solver. }
    assert (exists s, slices (slice_add n 0 i) !! 1%nat = Some s) as [s Hs].
    { apply lookup_lt_is_Some. rewrite (wfS_len _ Hw0). simpl. lia. }
    rewrite Hs. cbv beta iota.
    assert (exists m, (if lin y s then (slice_add n 0 i, Ok tt) else add_elayer (slice_add n 0 i) y 1) = (m, Ok tt)
      /\ l2n m = l2n n /\ forall k x, sl m k x <-> sl (slice_add n 0 i) k x \/ (k = 1 /\ x = y)) as (m & -> & Hlm & Hslm).
    { destruct (lin y s) eqn:El.
      - apply lin_true in El. exists (slice_add n 0 i). split_and!; [done|done|].
        intros k x. split; [by left|]. intros [?|[-> ->]]; [done|]. unfold sl. eauto.
      - destruct (add_elayer (slice_add n 0 i) y 1) as [m r1] eqn:E.
        destruct (add_elayer_wfS _ _ _ _ _ Hw0 E) as (? & ? & _ & _ & Hok).
        assert (r1 = Ok tt) as -> by (apply Hok; simpl; lia). exists m. split_and!; [done| |].
        + by destruct (sl_add_elayer _ _ _ _ _ 0 y Hw0 E).
        + intros k x. destruct (sl_add_elayer _ _ _ _ _ k x Hw0 E) as [-> _]. simpl. intuition lia. }
    cbn [obind]. intros [= <- <-]. split.
    + intros k x. change (sl (add_node_to_layer m i (LBare y)) k x) with (sl m k x).
      rewrite Hslm, Hsl0. split.
      * intros [[?|?]|[-> ->]]; [by left|right; by left|right; right; left; done].
      * intros [?|[?|[(_ & _ & -> & [= ->])|(_ & ? & _)]]]; [auto|auto|by right|lia].
    + intros l x. rewrite add_l2n_values. rewrite !(l2nv_eq n m) by done.
      destruct (decide (l = LBare y)) as [->|Hne].
      * rewrite elem_of_sadd. naive_solver.
      * naive_solver.
  - destruct (decide (2 <= aspects n)%nat) as [Ha|Ha].
    2:{ intros [= <- <-]. split; [|naive_solver]. intros k x. rewrite Hsl0. naive_solver. }
    change (ofold _ _ _) with (ofold add_node_loop (slice_add n 0 i) (imap pair ls)).
    destruct (ofold add_node_loop (slice_add n 0 i) (imap pair ls)) as [m r1] eqn:E.
    destruct (add_node_loop_fold _ _ _ _ Hw0 E) as (Hwm & Hsm & Hin & Hr1 & Hok).
    assert (length ls <= aspects n <-> r1 = Ok tt) as Hlen.
    { split.
      - intros Hle. apply Hok. intros p (j & y & -> & Hj)%elem_of_lookup_imap. simpl.
        apply lookup_lt_Some in Hj. lia.
      - intros Hr. destruct (decide (length ls <= aspects n)) as [|Hgt]; [done|].
        destruct (lookup_lt_is_Some_2 ls (aspects n)) as [y Hy]; [lia|].
        destruct (Hin Hr (aspects n, y)) as (s & Hsl & _).
        { apply elem_of_lookup_imap. eauto. }
        simpl in Hsl. apply lookup_lt_Some in Hsl. rewrite (wfS_len _ Hwm), (se_asp _ _ Hsm) in Hsl.
        simpl in Hsl. lia. }
    replace (imap pair ls) with (imap (fun i y => (i + 0, y)) ls) in E.
    2:{ apply imap_ext. intros j z _. simpl. f_equal. lia. }
    assert (forall k x, sl m k x <-> sl n k x \/ mentions (aspects n) false (OpAddNode i (Some (LTup ls))) k x) as Hslm.
    { intros k x. destruct (sl_add_node_fold _ _ _ _ _ k x Hw0 E) as [-> _]. rewrite Hsl0.
      unfold mentions. simpl. split.
      - intros [[?|?]|(j & Hj & -> & ?)]; [by left|by right; left|]. right. right. right.
        split_and!; [done|done|]. exists ls, j. split_and!; [done|done|lia|lia].
      - intros [?|[?|[(_ & ? & _)|(_ & _ & ls' & j & [= <-] & ? & -> & ?)]]]; [auto|auto|lia|].
        right. exists j. split_and!; [done|lia|lia]. }
    destruct (sl_add_node_fold _ _ _ _ _ 0 i Hw0 E) as [_ Hlm].
    destruct r1 as [[]|e].
    + cbn [obind]. intros [= <- <-]. split; [exact Hslm|].
      intros l x. rewrite add_l2n_values. rewrite !(l2nv_eq n m) by done.
      assert (length ls <= aspects n) by by apply Hlen.
      destruct (decide (l = LTup ls)) as [->|Hne].
      * rewrite elem_of_sadd. naive_solver.
      * naive_solver.
    + cbn [obind]. intros [= <- <-]. split; [exact Hslm|].
      intros l x. rewrite (l2nv_eq n m) by done. split; [by left|].
      intros [?|(_ & -> & [= <-] & _ & ?)]; [done|]. exfalso.
      assert (Err e = Ok tt) by by apply Hlen. done.
Qed.

Lemma add_layer_exact n l k n' r : wfS n -> add_layer n l k = (n', r) ->
  (forall j x, sl n' j x <-> sl n j x \/ (j = k /\ x = l /\ k <= aspects n)) /\
  (forall l x, x ∈ l2nv n' l <-> x ∈ l2nv n l).
Proof.
  intros Hw. unfold add_layer. destruct (decide (k = 0%nat)) as [->|Hk]; intros H.
  - destruct (add_node_exact _ _ _ _ _ Hw H) as [H1 H2]. split.
    + intros j x. rewrite H1. unfold mentions. split; [|intuition lia].
      intros [?|[[-> ->]|[(_&_&_&?)|(_&_&?&?&?&_)]]]; [auto|right; split_and!; try done; lia|done|done].
    + intros l' x. rewrite H2. naive_solver.
  - split.
    + intros j x. by destruct (sl_add_elayer _ _ _ _ _ j x Hw H).
    + intros l' x. destruct (sl_add_elayer _ _ _ _ _ 0 l Hw H) as [_ He]. by rewrite (l2nv_eq n n').
Qed.

Lemma add_layers_exact n (f : nat * name -> nat) ps n' r : wfS n ->
  ofold (fun m p => add_layer m (p.2) (f p)) n ps = (n', r) ->
  (forall p, p ∈ ps -> (f p <= aspects n)%nat) ->
  (forall j x, sl n' j x <-> sl n j x \/ exists p, p ∈ ps /\ j = f p /\ x = p.2) /\
  (forall l x, x ∈ l2nv n' l <-> x ∈ l2nv n l).
Proof.
  revert n. induction ps as [|p ps IH]; intros n Hw; cbn [ofold].
  - intros [= <- <-] _. split; [|done]. intros j x. split; [by left|].
    intros [?|(p & Hp & _)]; [done|]. by apply elem_of_nil in Hp.
  - destruct (add_layer n (p.2) (f p)) as [n1 r1] eqn:E1. intros Hf Hall.
    destruct (add_layer_wfS _ _ _ _ _ Hw E1) as (Hw1 & Hs1 & Hok & _).
    destruct (add_layer_exact _ _ _ _ _ Hw E1) as [Hx1 Hl1].
    assert (r1 = Ok tt) as -> by (apply Hok, Hall; left).
    destruct (IH n1 Hw1 Hf) as (Hx2 & Hl2).
    { intros q Hq. rewrite (se_asp _ _ Hs1). apply Hall. by right. }
    split.
    + intros j x. rewrite Hx2, Hx1. setoid_rewrite elem_of_cons.
      assert (f p <= aspects n) by (apply Hall; left). naive_solver.
    + intros l x. by rewrite Hl2, Hl1.
Qed.

(** Exact structural effect of the preparation phase of an assignment. *)
Lemma prep_exact n link n2 r : wfS n -> length link = 2 * S (aspects n) -> prep n link = (n2, r) ->
  (forall k x, sl n2 k x <-> sl n k x \/ evens link !! k = Some x \/ odds link !! k = Some x) /\
  (forall l x, x ∈ l2nv n2 l <-> x ∈ l2nv n l \/
     (fic n = false /\ (exists a, (a = evens link \/ a = odds link) /\ x = node_of a /\ l = layer_of n a))).
Proof.
  intros Hw Hlen. pose proof (even_split _ _ Hlen) as (Hle & Hlo & Hint).
  unfold prep, link_to_nodes.
  set (a := evens link) in *. set (b := odds link) in *.
  assert (exists i j, head link = Some i /\ link !! 1 = Some j /\ a !! 0 = Some i /\ b !! 0 = Some j
    /\ node_of a = i /\ node_of b = j /\ take 2 link = [i; j])
    as (i & j & Hi & Hj & Ha0 & Hb0 & Hna & Hnb & Htake).
  { subst a b. destruct link as [|i [|j link]]; simpl in Hlen; try lia. exists i, j. by destruct link. }
  assert (forall n1 r1, (if fic n then
       ofold (fun m p => add_layer m (p.2) (p.1 / 2)) n (imap pair (take 2 link))
     else
       obind (add_node n (node_of a) (Some (layer_of n a)))
             (fun m _ => add_node m (node_of b) (Some (layer_of m b)))) = (n1, r1) ->
     wfS n1 /\ sext n n1 /\ r1 = Ok tt /\
     (forall k x, sl n k x \/ (k = 0 /\ (x = i \/ x = j)) -> sl n1 k x) /\
     (forall k x, sl n1 k x -> sl n k x \/ a !! k = Some x \/ b !! k = Some x) /\
     (forall l x, x ∈ l2nv n1 l <-> x ∈ l2nv n l \/
     (fic n = false /\ (exists c, (c = a \/ c = b) /\ x = node_of c /\ l = layer_of n c)))) as Hph1.
  { intros n1 r1. destruct (fic n) eqn:Hf.
    - intros E. assert (forall p : nat * name, p ∈ imap pair (take 2 link) -> p.1 / 2 <= aspects n) as Hb.
      { intros p (k & y & -> & Hk)%elem_of_lookup_imap. simpl. apply lookup_lt_Some in Hk.
        rewrite take_length in Hk. destruct k as [|[|k]]; simpl; lia. }
      destruct (add_layers_fold _ (fun p => p.1 / 2) _ _ _ Hw E Hb) as (Hw1 & Hs1 & -> & _).
      destruct (add_layers_exact _ (fun p => p.1 / 2) _ _ _ Hw E Hb) as (Hx & Hl).
      split_and!; [done|done|done| | |].
      + intros k x. rewrite Hx, Htake. intros [?|[-> [->| ->]]]; [by left| |]; right.
        * exists (0, i). simpl. split_and!; [left|done|done].
        * exists (1, j). simpl. split_and!; [right; left|done|done].
      + intros k x. rewrite Hx, Htake. simpl. intros [?|(p & Hp & -> & ->)]; [by left|].
        right. apply elem_of_cons in Hp as [->|Hp]; [simpl; by left|].
        apply elem_of_cons in Hp as [->|Hp]; [simpl; by right|]. by apply elem_of_nil in Hp.
      + intros l x. rewrite Hl. naive_solver.
    - destruct (add_node n (node_of a) (Some (layer_of n a))) as [m rm] eqn:Em.
      assert (aspects n <> 0%nat) as Hasp by (intros ?%(wfS_fi0 _ Hw); congruence).
      assert (forall m c nd m' r', wfS m -> sext n m -> length c = S (aspects n) -> c !! 0 = Some nd ->
        add_node m nd (Some (layer_of m c)) = (m', r') ->
        r' = Ok tt /\ wfS m' /\ sext m m' /\ sl m' 0 nd /\
        (forall k x, sl m k x -> sl m' k x) /\
        (forall k x, sl m' k x -> sl m k x \/ c !! k = Some x) /\
        (forall l x, x ∈ l2nv m' l <-> x ∈ l2nv m l \/ (x = nd /\ l = layer_of n c))) as Hadd.
      { intros m0 c nd m' r' Hwm Hsm Hc Hc0 E'.
        destruct (add_node_wfS _ _ _ _ _ Hwm E') as (Hw' & Hs' & _ & _ & _ & _ & Hok1 & Hok2).
        destruct (add_node_exact _ _ _ _ _ Hwm E') as (Hx & Hl).
        rewrite (layer_of_sext _ _ _ Hsm) in *. rewrite (se_asp _ _ Hsm), (se_fic _ _ Hsm), Hf in *.
        destruct c as [|x0 c]; [done|]. injection Hc0 as ->. simpl in Hc.
        assert ((aspects n = 1 /\ exists y, c = [y] /\ layer_of n (nd :: c) = LBare y) \/
                (2 <= aspects n /\ length c = aspects n /\ layer_of n (nd :: c) = LTup c)) as Hcase.
        { destruct (decide (aspects n = 1)) as [H1|H1].
          - destruct c as [|y [|z c]]; simpl in Hc; try lia. left. split; [done|]. exists y.
            simpl. by rewrite decide_True.
          - destruct c as [|y [|z c]]; simpl in Hc; try lia. right.
            split_and!; [lia|simpl in *; lia|done]. }
        revert Hx Hl Hok1 Hok2 Hcase. generalize (layer_of n (nd :: c)). intros lc Hx Hl Hok1 Hok2 Hcase.
        split_and!; try done.
        - destruct Hcase as [(H1 & y & -> & Hy)|(H1 & H2 & Hy)].
          + apply (Hok1 H1 y). by rewrite Hy.
          + apply (Hok2 H1 c); [by rewrite Hy|lia].
        - apply Hx. right. simpl. by left.
        - intros k x Hk. apply Hx. by left.
        - intros k x Hk. apply Hx in Hk as [?|Hm]; [by left|]. right. unfold mentions in Hm.
          destruct Hm as [[-> ->]|[(_ & H1 & -> & Hy)|(_ & H1 & ls & q & Hy & Hq & -> & _)]]; [done| |].
          + injection Hy as Hy. destruct Hcase as [(_ & y & -> & Hy')|(? & _ & _)]; [|lia].
            rewrite Hy in Hy'. injection Hy' as ->. done.
          + injection Hy as Hy. destruct Hcase as [(? & _)|(_ & _ & Hy')]; [lia|].
            rewrite Hy in Hy'. injection Hy' as ->. done.
        - intros l x. rewrite Hl. split; [naive_solver|]. intros [?|[-> ->]]; [by left|]. right.
          split_and!; [done|done|done|].
          destruct Hcase as [(H1 & y & -> & ->)|(H1 & H2 & ->)]; [done|lia]. }
      rewrite Hna in Em.
      destruct (Hadd n a i m rm Hw (sext_refl n) Hle Ha0 Em) as (-> & Hwm & Hsm & Hi0 & Hmon & Hup & Hlm).
      cbn [obind]. rewrite Hnb. intros E2.
      destruct (Hadd m b j n1 r1 Hwm Hsm Hlo Hb0 E2) as (-> & Hw1 & Hs1 & Hj0 & Hmon2 & Hup2 & Hlm2).
      split_and!; [done|by eapply sext_trans|done| | |].
      + intros k x [?|[-> [->| ->]]]; auto.
      + intros k x Hk. apply Hup2 in Hk as [Hk|?]; [|auto]. apply Hup in Hk as [?|?]; auto.
      + intros l x. rewrite Hlm2, Hlm. split.
        * intros [[?|[-> ->]]|[-> ->]]; [by left| |]; right; (split; [done|]); [exists a|exists b];
            split_and!; auto.
        * intros [?|(_ & c & [->| ->] & -> & ->)]; [auto| |].
          -- left. right. done.
          -- right. done. }
  destruct (if fic n then _ else _) as [n1 r1] eqn:E1.
  destruct (Hph1 n1 r1 eq_refl) as (Hw1 & Hs1 & -> & Hlow & Hup & Hl1). cbn [obind].
  intros E2. assert (forall p : nat * name, p ∈ imap pair (drop 2 link) -> (p.1 + 2) / 2 <= aspects n1) as Hb.
  { intros p (k & y & -> & Hk)%elem_of_lookup_imap. cbn [fst]. apply lookup_lt_Some in Hk.
    rewrite drop_length in Hk. rewrite (se_asp _ _ Hs1).
    assert ((k + 2) / 2 < S (aspects n)); [|lia]. apply Nat.div_lt_upper_bound; lia. }
  destruct (add_layers_exact _ (fun p => (p.1 + 2) / 2) _ _ _ Hw1 E2 Hb) as (Hx2 & Hl2).
  split.
  - intros k x. rewrite Hx2. split.
    + intros [Hk|(p & Hp & -> & ->)]; [by apply Hup|].
      apply elem_of_lookup_imap in Hp as (q & y & -> & Hq). cbn [fst snd]. right.
      rewrite lookup_drop in Hq. subst a b. rewrite lookup_evens, lookup_odds.
      destruct (Nat.Even_or_Odd q) as [[c ->]|[c ->]].
      * left. replace ((2 * c + 2) / 2) with (S c).
        2:{ replace (2 * c + 2) with (S c * 2) by lia. by rewrite Nat.div_mul. }
        by replace (2 * S c) with (2 + 2 * c) by lia.
      * right. replace ((2 * c + 1 + 2) / 2) with (S c).
        2:{ replace (2 * c + 1 + 2) with (1 + S c * 2) by lia. by rewrite Nat.div_add. }
        by replace (2 * S c + 1) with (2 + (2 * c + 1)) by lia.
    + intros [?|Hk]; [left; apply Hlow; by left|]. destruct k as [|k].
      * left. apply Hlow. right. split; [done|]. destruct Hk; simplify_eq; auto.
      * right. subst a b. rewrite lookup_evens, lookup_odds in Hk. destruct Hk as [Hk|Hk].
        -- exists (2 * k, x). cbn [fst snd]. split_and!; [|by rewrite Nat.mul_comm, <- Nat.mul_succ_l, Nat.div_mul|done].
           apply elem_of_lookup_imap. exists (2 * k), x. split; [done|]. rewrite lookup_drop.
           by replace (2 + 2 * k) with (2 * S k) by lia.
        -- exists (2 * k + 1, x). cbn [fst snd]. split_and!; [| |done].
           ++ apply elem_of_lookup_imap. exists (2 * k + 1), x. split; [done|]. rewrite lookup_drop.
              by replace (2 + (2 * k + 1)) with (2 * S k + 1) by lia.
           ++ replace (2 * k + 1 + 2) with (1 + S k * 2) by lia. by rewrite Nat.div_add.
  - intros l x. rewrite Hl2, Hl1. done.
Qed.

(** ** Writes *)
Definition write_of (asp : nat) (o : op) : option (nl * nl * Z) :=
  match o with
  | OpSet item w =>
      if decide (length item = 2 * S asp) then Some (evens item, odds item, w)
      else if decide (length item = S asp + 1) then
        let l := short_link_to_link item in Some (evens l, odds l, w)
      else None
  | OpNodeSet a b w =>
      if decide (length a = S asp /\ length b = S asp) then Some (a, b, w) else None
  | _ => None
  end.

Lemma evens_odds_unique (item a b : list name) k :
  length item = 2 * k -> length a = k -> length b = k ->
  (forall k, a !! k = item !! (2 * k)) -> (forall k, b !! k = item !! (2 * k + 1)) ->
  a = evens item /\ b = odds item.
Proof.
  intros _ _ _ Ha Hb. split; apply list_eq; intros j.
  - by rewrite Ha, lookup_evens.
  - by rewrite Hb, lookup_odds.
Qed.

Lemma writes_spec asp o a b w : writes asp o a b w <-> write_of asp o = Some (a, b, w).
Proof.
  destruct o as [item v|a' b' v|x l|l k]; simpl; [| |split; done..].
  - split.
    + intros [-> Hn]. destruct Hn as [item a b H1 H2 H3 H4 H5|i j ss H].
      * rewrite decide_True by done. by destruct (evens_odds_unique item a b (S asp)) as [-> ->].
      * destruct (decide _) as [H1|H1].
        -- simpl in H1. assert (ss = []) as -> by (apply length_zero_iff_nil; lia). done.
        -- rewrite decide_True by (simpl; lia). rewrite short_link_spec.
           rewrite evens_interleave, odds_interleave by done. done.
    + destruct (decide (length item = _)) as [H1|H1].
      * intros [= <- <- <-]. split; [done|]. destruct (even_split item (S asp) H1) as (H2 & H3 & _).
        constructor; [done|done|done| |]; intros k; [apply lookup_evens|apply lookup_odds].
      * destruct (decide (length item = _)) as [H2|H2]; [|done].
        destruct item as [|i [|j ss]]; simpl in H2; [lia|lia|].
        rewrite short_link_spec, evens_interleave, odds_interleave by done.
        intros [= <- <- <-]. split; [done|]. apply names_short. lia.
  - destruct (decide _) as [H|H]; naive_solver.
Qed.

Lemma write_of_length asp o a b w : write_of asp o = Some (a, b, w) -> length a = S asp /\ length b = S asp.
Proof.
  destruct o as [item v|a' b' v|x l|l k]; simpl; try done.
  - destruct (decide (length item = _)) as [H1|H1].
    + intros [= <- <- <-]. destruct (even_split item (S asp) H1) as (H2 & H3 & _). done.
    + destruct (decide (length item = _)) as [H2|H2]; [|done].
      destruct item as [|i [|j ss]]; simpl in H2; [lia|lia|].
      rewrite short_link_spec, evens_interleave, odds_interleave by done.
      intros [= <- <- <-]. simpl. lia.
  - destruct (decide _) as [[H1 H2]|H]; [|done]. by intros [= <- <- <-].
Qed.

Lemma mapM_idx_names (l : list name) : mapM idx_name (INm <$> l) = Some l.
Proof. apply mapM_Some. induction l as [|x l IH]; [constructor|]. by constructor. Qed.

(** A call that is a write behaves like [set_link] after adding the endpoints. *)
Lemma step_write n o a b w : write_of (aspects n) o = Some (a, b, w) ->
  step n o = obind (prep n (interleave a b)) (fun n2 _ => set_link n2 (interleave a b) w).
Proof.
  intros Hwr. pose proof (write_of_length _ _ _ _ _ Hwr) as [Hla Hlb].
  assert (forall item, setitem_link n item = Ok (interleave a b) -> setitem n item w =
    obind (prep n (interleave a b)) (fun n2 _ => set_link n2 (interleave a b) w)) as Hsi.
  { intros item Hi. by apply setitem_prep_eq. }
  assert (setitem_link n (interleave a b) = Ok (interleave a b)) as Hself.
  { unfold setitem_link. rewrite decide_True; [done|]. rewrite interleave_length; lia. }
  destruct o as [item v|a' b' v|x l|l k]; simpl in Hwr; try done; simpl.
  - destruct (decide (length item = _)) as [H1|H1].
    + simplify_eq. destruct (even_split item (S (aspects n)) H1) as (_ & _ & He). apply Hsi.
      unfold setitem_link. rewrite decide_True by done. by rewrite He.
    + destruct (decide (length item = _)) as [H2|H2]; [|done].
      destruct item as [|i [|j ss]]; simpl in H2; [lia|lia|].
      rewrite short_link_spec, evens_interleave, odds_interleave in Hwr by done. simplify_eq.
      apply Hsi. unfold setitem_link. rewrite decide_False by done. rewrite decide_True by (simpl; lia).
      by rewrite short_link_spec.
  - destruct (decide _) as [[H1 H2]|H]; [|done]. simplify_eq. unfold node_setitem.
    unfold getitem. rewrite fmap_length, decide_True by done. rewrite mapM_idx_names.
    unfold nodes_to_link. rewrite decide_True by lia. by apply Hsi.
Qed.

(** A malformed write has no effect. *)
Lemma step_no_write n o : write_of (aspects n) o = None ->
  match o with OpSet _ _ => step n o = (n, Err KeyError) | OpNodeSet _ _ _ => exists e, step n o = (n, Err e)
             | _ => True end.
Proof.
  destruct o as [item v|a b v|x l|l k]; simpl; try done.
  - destruct (decide (length item = _)) as [H1|H1]; [done|].
    destruct (decide (length item = _)) as [H2|H2]; [done|]. intros _.
    unfold setitem, setitem_link. rewrite decide_False by done. by rewrite decide_False.
  - destruct (decide _) as [H|H]; [done|]. intros _. unfold node_setitem, getitem.
    rewrite fmap_length. destruct (decide (length a = _)) as [H1|H1].
    + rewrite mapM_idx_names. unfold nodes_to_link. rewrite decide_False by lia. eauto.
    + destruct (decide (length a = _)) as [H2|H2].
      { unfold getitem_full. destruct (mapM _ _); [|eauto]. destruct (decide (IColon ∈ _)) as [Hc|Hc].
        - exfalso. revert Hc. unfold odds.
          assert (forall l : list idx, (forall x, x ∈ l -> x <> IColon) -> forall x, x ∈ evens l -> x <> IColon) as He.
          { intros l0. intros H0 x Hx. apply H0. apply elem_of_list_lookup in Hx as [q Hq].
            rewrite lookup_evens in Hq. by eapply elem_of_list_lookup_2. }
          intros Hc. eapply He; [|exact Hc|done]. intros x Hx ->.
          assert (IColon ∈ INm <$> a) as Hin by (destruct a; [by apply elem_of_nil in Hx|right; done]).
          apply elem_of_list_fmap in Hin as (? & ? & ?). done.
        - rewrite mapM_idx_names. eauto. }
      destruct (decide (length a = _)) as [H3|H3]; [|eauto].
      destruct (decide (IColon ∈ drop 2 _)) as [Hc|Hc]; [eauto|].
      assert (exists l, short_link_to_link (INm <$> a) = INm <$> l) as [l ->].
      { exists (short_link_to_link a). unfold short_link_to_link. rewrite fmap_app, <- fmap_take, <- fmap_drop.
        f_equal. generalize (drop 2 a). intros l. induction l as [|x l IH]; [done|].
        change (dup_each (INm <$> (x :: l))) with (INm x :: INm x :: dup_each (INm <$> l)). by rewrite IH. }
      unfold getitem_full. destruct (mapM _ (evens _)); [|eauto].
      destruct (decide (IColon ∈ odds _)) as [Hc'|Hc'].
      { exfalso. unfold odds in Hc'. apply elem_of_list_lookup in Hc' as [q Hq].
        rewrite lookup_evens in Hq. apply elem_of_list_lookup_2 in Hq.
        assert (IColon ∈ INm <$> l) as Hin by (destruct l; [by apply elem_of_nil in Hq|right; done]).
        apply elem_of_list_fmap in Hin as (? & ? & ?). done. }
      rewrite mapM_idx_names. eauto.
Qed.

Record inv (asp : nat) (noe : Z) (dir fi : bool) (n : mlnet) : Prop := {
  inv_S : wfS n;
  inv_L : wfL n;
  inv_asp : aspects n = asp;
  inv_noe : noEdge n = noe;
  inv_dir : directed n = dir;
  inv_fic : fic n = if decide (asp = 0) then true else fi;
}.

Lemma new_net_inv asp noe dir fi : inv asp noe dir fi (new_net asp noe dir fi).
Proof.
  assert (forall k, Forall NoDup (replicate k (@nil name))) as Hr.
  { intros k. apply Forall_forall. intros x [-> _]%elem_of_replicate. constructor. }
  split; try done.
  - split; try done.
    + simpl. by rewrite replicate_length.
    + apply (Hr (S asp)).
    + intros ?. simpl in *. by rewrite decide_True.
    + constructor.
    + constructor.
    + intros l. constructor.
    + intros x. constructor.
    + intros x l. unfold l2nv, n2lv. simpl. by rewrite !elem_of_nil.
    + intros x l Hl. by apply elem_of_nil in Hl.
    + intros x. simpl. by intros [? ?].
  - split; try done; try apply wf2_nil.
    intros a b [? Hx]. done.
Qed.

(** The effect of one call. *)
Lemma step_spec n o n' r : wfS n -> wfL n -> step n o = (n', r) ->
  wfS n' /\ wfL n' /\ aspects n' = aspects n /\ noEdge n' = noEdge n /\ directed n' = directed n /\ fic n' = fic n /\
  (* links *)
  (forall x y, lnk n' x y =
     match write_of (aspects n) o with
     | Some (a, b, w) => if decide (hit (directed n) a b x y)
                         then (if decide (w = noEdge n) then None else Some w) else lnk n x y
     | None => lnk n x y
     end) /\
  (* total degree counters *)
  (directed n = true -> forall x, tot n' x =
     match write_of (aspects n) o with
     | Some (a, b, w) => (tot n x + tot_change n a b w x)%Z
     | None => tot n x
     end) /\
  (* outcome *)
  (forall a b w, write_of (aspects n) o = Some (a, b, w) ->
     r = if decide (w = noEdge n /\ directed n = false /\ a = b /\ is_Some (lnk n a b)) then Err KeyError else Ok tt) /\
  (* nodes and layers *)
  (forall k x, sl n' k x <-> sl n k x \/ mentions (aspects n) (fic n) o k x) /\
  (forall x, present n' x <-> present n x \/
     (fic n = true /\ nl_in_slices n' x) \/ (fic n = false /\ creates (aspects n) o x)).
Proof.
  intros HS HL E.
  assert (forall n' o, wfS n' -> sext n n' -> 
    (forall k x, sl n' k x <-> sl n k x \/ mentions (aspects n) (fic n) o k x) ->
    (forall l x, length (nl_of x l) = S (aspects n) -> fic n = false ->
       layer_of n (nl_of x l) = l ->
       x ∈ l2nv n' l <-> x ∈ l2nv n l \/ creates (aspects n) o (nl_of x l)) ->
    (forall a, fic n = false -> length a = S (aspects n) -> creates (aspects n) o a -> nl_in_slices n' a) ->
    (forall a, creates (aspects n) o a -> fic n = false -> length a = S (aspects n)) ->
    forall x, present n' x <-> present n x \/
     (fic n = true /\ nl_in_slices n' x) \/ (fic n = false /\ creates (aspects n) o x)) as Hpres.
  { intros m o' Hm Hsx Hsl Hl2 Hnl Hlen x.
    rewrite !elem_of_iter_node_layers by done. rewrite (se_fic _ _ Hsx), (layer_of_sext _ _ _ Hsx).
    destruct (fic n) eqn:Hf.
    - split; [naive_solver|]. intros [[H1 _]|[[_ H1]|[? _]]]; [|done|done].
      split; [|done]. by eapply sext_nl.
    - assert (forall c, length c = S (aspects n) ->
        node_of c ∈ l2nv m (layer_of n c) <-> node_of c ∈ l2nv n (layer_of n c) \/ creates (aspects n) o' c) as Hc.
      { intros c Hc. assert (nl_of (node_of c) (layer_of n c) = c) as He by (apply nl_of_layer_of; by intros ->).
        rewrite (Hl2 (layer_of n c) (node_of c)); rewrite ?He; done. }
      split.
      + intros [H1 H2]. specialize (H2 eq_refl). apply Forall2_length in H1 as Hl.
        rewrite (wfS_len _ Hm), (se_asp _ _ Hsx) in Hl. apply (Hc x Hl) in H2 as [H2|H2]; [|auto]. left.
        split; [|done].
        (* node-layer recorded earlier *)
        assert (layer_of n x ∈ n2lv n (node_of x)) as H3 by by apply (wfS_mirror _ HS).
        apply (wfS_layer _ HS) in H3 as [H3 H4].
        assert (aspects n <> 0) by (intros ?%(wfS_fi0 _ HS); congruence).
        apply Forall2_same_length_lookup. split; [by rewrite (wfS_len _ HS)|].
        intros [|i] y s Hy Hs.
        * unfold net_nodes in H3. rewrite Hs in H3. unfold node_of in H3. rewrite head_lookup, Hy in H3. done.
        * destruct x as [|x0 [|x1 [|x2 x]]]; simpl in *; try lia.
          -- destruct (decide (aspects n = 1)) as [Ha|Ha].
             ++ destruct H4 as (_ & s1 & Hs1 & Hin). destruct i; simpl in *; simplify_eq. done.
             ++ lia.
          -- destruct H4 as (_ & H4). destruct (H4 i y Hy) as (s1 & Hs1 & Hin). simplify_eq. done.
      + intros [[H1 H2]|[[? _]|[_ H1]]]; [|done|].
        * split; [by eapply sext_nl|]. intros _. apply (se_l2n _ _ Hsx). by apply H2.
        * assert (length x = S (aspects n)) as Hl by (by apply Hlen).
          split; [by apply Hnl|]. intros _. apply Hc; [done|]. by right. }
  assert (forall n', wfS n' -> sext n n' -> wfL n' /\ aspects n' = aspects n /\ noEdge n' = noEdge n /\
    directed n' = directed n /\ fic n' = fic n /\ (forall x y, lnk n' x y = lnk n x y) /\
    forall x, tot n' x = tot n x) as Hstruct.
  { intros m Hm Hs. split; [exact (wfL_sext n m HS Hm Hs HL)|]. split_and!; try apply Hs.
    - intros x y. unfold lnk. by rewrite (se_net _ _ Hs).
    - intros x. unfold tot. by rewrite (se_tot _ _ Hs). }
  destruct (write_of (aspects n) o) as [[[a b] w]|] eqn:Ewr.
  - (* a write *)
    pose proof (write_of_length _ _ _ _ _ Ewr) as [Hla Hlb].
    rewrite (step_write _ _ _ _ _ Ewr) in E.
    assert (length (interleave a b) = 2 * S (aspects n)) as Hlen by (rewrite interleave_length; lia).
    destruct (prep_ok n (interleave a b) HS Hlen) as (n2 & E2 & HS2 & Hsx & Hpa & Hpb).
    destruct (prep_exact _ _ _ _ HS Hlen E2) as (Hx & Hl).
    rewrite evens_interleave in * by lia. rewrite odds_interleave in * by lia.
    rewrite E2 in E. cbn [obind] in E.
    destruct (Hstruct n2 HS2 Hsx) as (HL2 & Ha2 & Hn2 & Hd2 & Hf2 & Hlnk2 & Htot2).
    destruct (set_link_spec _ _ _ _ _ _ HS2 HL2 Hpa Hpb E) as (Hss & HL' & Hlnk & Hr & Ht).
    rewrite Hd2, Hn2 in *.
    assert (HS' : wfS n') by by eapply same_struct_wfS.
    assert (Hw : forall a0 b0 w0, writes (aspects n) o a0 b0 w0 <-> a0 = a /\ b0 = b /\ w0 = w).
    { intros. rewrite writes_spec, Ewr. naive_solver. }
    assert (forall k x, mentions (aspects n) (fic n) o k x <-> a !! k = Some x \/ b !! k = Some x) as Hment.
    { intros k x. destruct o; simpl in Ewr; try done; simpl; split;
       try (intros (? & ? & ? & (-> & -> & ->)%Hw & ?); done); intros ?; exists a, b, w; (split; [by apply Hw|done]). }
    assert (forall x, creates (aspects n) o x <-> x = a \/ x = b) as Hcre.
    { intros x. destruct o; simpl in Ewr; try done; simpl; split;
       try (intros (? & ? & [(-> & -> & ->)%Hw|(-> & -> & ->)%Hw]); auto);
       intros [->| ->]; [exists b, w; left|exists a, w; right| exists b, w; left|exists a, w; right]; by apply Hw. }
    assert (forall k x, sl n' k x <-> sl n2 k x) as Hsl' by (intros; unfold sl; by rewrite (ss_sl _ _ Hss)).
    split_and!; try done.
    + by rewrite (ss_asp _ _ Hss).
    + by rewrite (ss_noe _ _ Hss).
    + by rewrite (ss_dir _ _ Hss).
    + by rewrite (ss_fic _ _ Hss).
    + intros x y. rewrite Hlnk, Hlnk2. done.
    + intros Hd x. rewrite (Ht Hd), Htot2. f_equal. unfold tot_change. rewrite Hn2, !Hlnk2. done.
    + intros ? ? ? [= <- <- <-]. rewrite Hr, Hlnk2. done.
    + intros k x. by rewrite Hsl', Hx, Hment.
    + intros x. rewrite (same_struct_inl _ _ Hss).
      assert (nl_in_slices n' x <-> nl_in_slices n2 x) as -> by (unfold nl_in_slices; by rewrite (ss_sl _ _ Hss)).
      apply Hpres; [done|done| | | |].
      * intros k x'. by rewrite Hx, Hment.
      * intros l x' Hl' Hf Hlay. rewrite Hl, Hcre. split; [|].
        -- intros [?|(_ & c & Hc & -> & ->)]; [by left|]. right.
           rewrite nl_of_layer_of; [done|]. intros ->. destruct Hc; subst; done.
        -- intros [?|Hc]; [by left|]. right. split; [done|]. exists (nl_of x' l).
           split_and!; [done| |done]. by destruct l.
      * intros c Hf Hc [->| ->]%Hcre.
        -- apply elem_of_iter_node_layers in Hpa as [? _]; done.
        -- apply elem_of_iter_node_layers in Hpb as [? _]; done.
      * intros c [->| ->]%Hcre; done.
  - (* not a write *)
    pose proof (step_no_write n o Ewr) as Hno.
    assert (forall a b w, ~ writes (aspects n) o a b w) as Hnw.
    { intros a b w Hw. apply writes_spec in Hw. congruence. }
    assert (match o with OpSet _ _ | OpNodeSet _ _ _ => n' = n | _ => True end) as Hsame.
    { destruct o; try done; [|destruct Hno as [? Hno]]; rewrite Hno in E; by injection E. }
    destruct o as [item v|a b v|i lay|l k].
    + subst n'. destruct (Hstruct n HS (sext_refl n)) as (? & _). split_and!; try done.
      * intros k x. split; [by left|]. intros [?|(? & ? & ? & ?%Hnw & ?)]; done.
      * apply Hpres; [done|apply sext_refl| | | |].
        -- intros k x. split; [by left|]. intros [?|(? & ? & ? & ?%Hnw & ?)]; done.
        -- intros. split; [by left|]. intros [?|(? & ? & [?%Hnw|?%Hnw])]; done.
        -- intros ? ? ? (? & ? & [?%Hnw|?%Hnw]); done.
        -- intros ? (? & ? & [?%Hnw|?%Hnw]); done.
    + subst n'. destruct (Hstruct n HS (sext_refl n)) as (? & _). split_and!; try done.
      * intros k x. split; [by left|]. intros [?|(? & ? & ? & ?%Hnw & ?)]; done.
      * apply Hpres; [done|apply sext_refl| | | |].
        -- intros k x. split; [by left|]. intros [?|(? & ? & ? & ?%Hnw & ?)]; done.
        -- intros. split; [by left|]. intros [?|(? & ? & [?%Hnw|?%Hnw])]; done.
        -- intros ? ? ? (? & ? & [?%Hnw|?%Hnw]); done.
        -- intros ? (? & ? & [?%Hnw|?%Hnw]); done.
    + simpl in E. destruct (add_node_wfS _ _ _ _ _ HS E) as (HS' & Hsx & _).
      destruct (add_node_exact _ _ _ _ _ HS E) as (Hx & Hl).
      destruct (Hstruct n' HS' Hsx) as (HL2 & Ha2 & Hn2 & Hd2 & Hf2 & Hlnk2 & Htot2).
      split_and!; try done.
      apply Hpres; [done|done|done| | |].
      * intros l x Hlen Hf Hlay. rewrite Hl. simpl. split.
        -- intros [?|(_ & -> & -> & Hc)]; [by left|]. right. destruct l as [y|ls]; [done|].
           simpl in Hlen. split_and!; [lia|lia|done].
        -- intros [?|Hc]; [by left|]. right. destruct lay as [[y|ls]|]; [| |done].
           ++ destruct Hc as [Hc1 Hc2]. destruct l as [y'|ls']; simpl in *; simplify_eq; [done|].
              rewrite decide_True in Hlay by done. done.
           ++ clear E Hlay. destruct Hc as (Hc1 & Hc2 & Hc3). destruct l as [y'|ls']; simpl in Hc3; injection Hc3 as -> <-.
              { simpl in Hc2. lia. }
              split_and!; lia || done.
      * intros a Hf Hlen Hc. simpl in Hc. apply Forall2_same_length_lookup.
        split; [by rewrite (wfS_len _ HS'), Ha2|].
        assert (forall k x, mentions (aspects n) (fic n) (OpAddNode i lay) k x -> forall s, slices n' !! k = Some s -> x ∈ s) as Hmem.
        { intros k x Hm s Hs. assert (sl n' k x) as (s' & Hs' & ?) by (apply Hx; by right). by simplify_eq. }
        intros k y s Hy Hs. eapply Hmem; [|done]. simpl.
        destruct lay as [[z|ls]|]; [| |done].
        -- destruct Hc as [Hc ->]. destruct k as [|[|k]]; simpl in Hy; simplify_eq; [by left|].
           right. left. done.
        -- destruct Hc as (Hc1 & Hc2 & ->). destruct k as [|k]; simpl in Hy; simplify_eq; [by left|].
           right. right. split_and!; [done|done|]. exists ls, k. apply lookup_lt_Some in Hy as Hlt.
           split_and!; try done. lia.
      * intros a Hc Hf. simpl in Hc. destruct lay as [[z|ls]|]; [| |done].
        -- destruct Hc as [-> ->]. done.
        -- destruct Hc as (_ & <- & ->). done.
    + simpl in E. destruct (add_layer_wfS _ _ _ _ _ HS E) as (HS' & Hsx & _).
      destruct (add_layer_exact _ _ _ _ _ HS E) as (Hx & Hl).
      destruct (Hstruct n' HS' Hsx) as (HL2 & Ha2 & Hn2 & Hd2 & Hf2 & Hlnk2 & Htot2).
      assert (forall j x, sl n' j x <-> sl n j x \/ mentions (aspects n) (fic n) (OpAddLayer l k) j x) as Hx'.
      { intros j x. rewrite Hx. simpl. split; intros [?|(-> & -> & ?)]; auto. }
      split_and!; try done.
      apply Hpres; [done|done|done| |done|done].
      intros l' x Hlen Hf Hlay. rewrite Hl. simpl. naive_solver.
Qed.

(** ** Re-ordering of sets *)
Lemma dget_reorder {K V} `{EqDecision K} (d e : list (K * list V)) k :
  Forall2 (fun p q => p.1 = q.1 /\ Permutation (p.2) (q.2)) d e ->
  Permutation (default [] (dget d k)) (default [] (dget e k)) /\ (is_Some (dget d k) <-> is_Some (dget e k)).
Proof.
  induction 1 as [|[k1 v1] [k2 v2] d e [Hk Hv] H IH]; simpl in *; [done|]. subst.
  destruct (decide (k = k2)); [|done]. simpl. split; [done|]. split; eauto.
Qed.
Lemma dkeys_reorder {K V} (d e : list (K * list V)) :
  Forall2 (fun p q => p.1 = q.1 /\ Permutation (p.2) (q.2)) d e -> dkeys d = dkeys e.
Proof.
  unfold dkeys. induction 1 as [|[k1 v1] [k2 v2] d e [Hk Hv] H IH]; simpl in *; [done|]. by subst; f_equal.
Qed.

Lemma reorder_sl n m k x : reorder n m -> sl n k x <-> sl m k x.
Proof.
  intros (_ & _ & _ & _ & _ & _ & _ & Hs & _). unfold sl. split.
  - intros (s & Hsk & Hx). destruct (Forall2_lookup_l _ _ _ _ _ Hs Hsk) as (t & Ht & Hp).
    exists t. split; [done|]. by rewrite <- Hp.
  - intros (s & Hsk & Hx). destruct (Forall2_lookup_r _ _ _ _ _ Hs Hsk) as (t & Ht & Hp).
    exists t. split; [done|]. by rewrite Hp.
Qed.
Lemma net_nodes_sl n x : x ∈ net_nodes n <-> sl n 0 x.
Proof.
  unfold net_nodes, sl. destruct (slices n !! 0) as [s|]; simpl; [naive_solver|].
  rewrite elem_of_nil. naive_solver.
Qed.
Lemma layer_ok_sl n l : layer_ok n l <->
  match l with LBare y => aspects n = 1 /\ sl n 1 y
  | LTup ls => 2 <= aspects n /\ forall i y, ls !! i = Some y -> sl n (S i) y end.
Proof. by destruct l. Qed.
Lemma nl_in_slices_sl n a : nl_in_slices n a <->
  length a = length (slices n) /\ forall k x, a !! k = Some x -> sl n k x.
Proof.
  unfold nl_in_slices. rewrite Forall2_same_length_lookup. split.
  - intros [Hl H]. split; [done|]. intros k x Hx.
    destruct (lookup_lt_is_Some_2 (slices n) k) as [s Hs].
    { rewrite <- Hl. by eapply lookup_lt_Some. }
    exists s. split; [done|]. by eapply H.
  - intros [Hl H]. split; [done|]. intros k x s Hx Hs. destruct (H k x Hx) as (t & Ht & ?). by simplify_eq.
Qed.

Lemma reorder_wfS n m : reorder n m -> wfS n -> wfS m.
Proof.
  intros Hr Hw. pose proof (fun k x => reorder_sl n m k x Hr) as Hsl.
  destruct Hr as (Ha & Hd & Hne & Hf & Hn & Hrn & Ht & Hs & Hl & Hn2).
  pose proof (fun l => dget_reorder _ _ l Hl) as Hl'. pose proof (fun x => dget_reorder _ _ x Hn2) as Hn2'.
  assert (forall x l, l ∈ n2lv m x <-> l ∈ n2lv n x) as Hn2v.
  { intros x l. unfold n2lv. destruct (Hn2' x) as [-> _]. done. }
  assert (forall x l, x ∈ l2nv m l <-> x ∈ l2nv n l) as Hl2v.
  { intros x l. unfold l2nv. destruct (Hl' l) as [-> _]. done. }
  split.
  - by rewrite <- (Forall2_length _ _ _ Hs), <- Ha, (wfS_len _ Hw).
  - apply Forall_lookup. intros k t Hk. destruct (Forall2_lookup_r _ _ _ _ _ Hs Hk) as (s & Hsk & Hp).
    rewrite <- Hp. by eapply (Forall_lookup_1 _ _ _ _ (wfS_nodup _ Hw)).
  - rewrite <- Ha, <- Hf. apply Hw.
  - rewrite <- Hf. intros HH. destruct (wfS_fi _ Hw HH) as [H1 H2]. rewrite H1 in Hl. rewrite H2 in Hn2.
    apply Forall2_nil_inv_l in Hl, Hn2. done.
  - rewrite <- (dkeys_reorder _ _ Hl). apply Hw.
  - rewrite <- (dkeys_reorder _ _ Hn2). apply Hw.
  - intros l. unfold l2nv. destruct (Hl' l) as [<- _]. apply Hw.
  - intros l. unfold n2lv. destruct (Hn2' l) as [<- _]. apply Hw.
  - intros x l. rewrite Hl2v, Hn2v. apply Hw.
  - intros x l. rewrite Hn2v. intros H. destruct (wfS_layer _ Hw _ _ H) as [H1 H2].
    rewrite net_nodes_sl, layer_ok_sl in *. rewrite <- Ha. split; [by apply Hsl|].
    destruct l; [|destruct H2 as [? H2]; split; [done|]; intros; apply Hsl; eauto].
    destruct H2 as [? H2]. split; [done|]. by apply Hsl.
  - intros x Hx He. apply (wfS_n2l_ne _ Hw x); [by apply Hn2'|].
    unfold n2lv in *. destruct (Hn2' x) as [Hp _]. rewrite He in Hp. by apply Permutation_nil_r in Hp.
Qed.

Lemma reorder_present n m a : reorder n m -> wfS n -> present m a <-> present n a.
Proof.
  intros Hr Hw. pose proof (reorder_wfS _ _ Hr Hw) as Hm.
  rewrite !elem_of_iter_node_layers by done. rewrite !nl_in_slices_sl.
  rewrite (wfS_len _ Hw), (wfS_len _ Hm).
  pose proof (fun k x => reorder_sl n m k x Hr) as Hsl.
  destruct Hr as (Ha & Hd & Hne & Hf & Hn & Hrn & Ht & Hs & Hl & Hn2).
  unfold layer_of, l2nv. rewrite Ha, Hf. destruct (dget_reorder _ _ (layer_of m a) Hl) as [Hp _].
  unfold layer_of in Hp. rewrite Hp. setoid_rewrite Hsl. done.
Qed.

Lemma reorder_lnk n m x y : reorder n m -> lnk m x y = lnk n x y.
Proof. intros (_ & _ & _ & _ & Hn & _). unfold lnk. by rewrite Hn. Qed.
Lemma reorder_tot n m x : reorder n m -> tot m x = tot n x.
Proof. intros (_ & _ & _ & _ & _ & _ & Ht & _). unfold tot. by rewrite Ht. Qed.

Lemma reorder_wfL n m : reorder n m -> wfS n -> wfL n -> wfL m.
Proof.
  intros Hr Hw HL. pose proof (reorder_lnk n m) as Hlnk.
  pose proof Hr as (Ha & Hd & Hne & Hf & Hn & Hrn & Ht & Hs & Hl & Hn2).
  split; rewrite <- ?Hn, <- ?Hrn, <- ?Hd, <- ?Hne, <- ?Ht; try apply HL.
  - intros a b w. rewrite Hlnk by done. intros [H1 H2]%(wfL_present _ HL).
    split; by apply (reorder_present n m).
  - intros a b. rewrite Hlnk by done. apply HL.
  - intros Hdd a b. rewrite !Hlnk by done. by apply (wfL_sym _ HL).
  - intros Hdd a b. rewrite Hlnk by done. unfold rlnk in *. rewrite <- Hrn. by apply (wfL_rev _ HL).
  - intros Hdd a b. rewrite Hlnk by done. by apply (wfL_tot _ HL).
  - intros a b. rewrite Hlnk by done. by apply (wfL_row _ HL).
Qed.

Lemma hist_inv asp noe dir fi h n : hist asp noe dir fi h n -> inv asp noe dir fi n.
Proof.
  induction 1 as [|h n o H IH|h n m H IH Hr].
  - apply new_net_inv.
  - destruct (step n o) as [n' r] eqn:E. destruct IH.
    destruct (step_spec _ _ _ _ inv_S0 inv_L0 E) as (? & ? & ? & ? & ? & ? & _).
    simpl. split; congruence.
  - destruct IH. pose proof Hr as (? & ? & ? & ? & _).
    split; try congruence; [by eapply reorder_wfS|by eapply reorder_wfL].
Qed.

(** ** Refinement: the link map after a history *)
Definition smap := nl -> nl -> Z.
Definition spec_step (asp : nat) (dir : bool) (s : smap) (o : op) : smap :=
  match write_of asp o with
  | Some (a, b, w) => fun x y => if decide (hit dir a b x y) then w else s x y
  | None => s
  end.
Definition spec_run (asp : nat) (noe : Z) (dir : bool) (h : list op) : smap :=
  fold_left (spec_step asp dir) h (fun _ _ => noe).

Definition rd (n : mlnet) (x y : nl) : Z := default (noEdge n) (lnk n x y).
Lemma hist_refines asp noe dir fi h n : hist asp noe dir fi h n ->
  forall x y, rd n x y = spec_run asp noe dir h x y.
Proof.
  induction 1 as [|h n o H IH|h n m H IH Hr]; intros x y.
  - done.
  - apply hist_inv in H as Hi. destruct Hi. destruct (step n o) as [n' r] eqn:E.
    destruct (step_spec _ _ _ _ inv_S0 inv_L0 E) as (_ & _ & _ & Hne & _ & _ & Hlnk & _).
    unfold spec_run. rewrite fold_left_app. simpl. fold (spec_run asp noe dir h).
    unfold rd, spec_step. rewrite Hne, Hlnk, inv_asp0.
    destruct (write_of asp o) as [[[a b] w]|]; [|apply IH]. rewrite inv_dir0.
    destruct (decide (hit dir a b x y)); [|apply IH]. by destruct (decide (w = noEdge n)) as [->|].
  - rewrite <- IH. unfold rd. rewrite (reorder_lnk n m) by done. by destruct Hr as (_ & _ & -> & _).
Qed.

Lemma assigns_spec asp dir o x y w : assigns asp dir o x y w <->
  exists a b, write_of asp o = Some (a, b, w) /\ hit dir a b x y.
Proof.
  unfold assigns, hit. rewrite !writes_spec. split.
  - intros [H|[Hd H]]; eauto 10.
  - intros (a & b & H & [[-> ->]|(? & -> & ->)]); auto.
Qed.

Lemma spec_run_last asp noe dir h x y :
  last_assigned asp noe dir h x y (spec_run asp noe dir h x y).
Proof.
  induction h as [|o h IH] using rev_ind.
  - right. split; [done|]. intros o' w' Ho. by apply elem_of_nil in Ho.
  - unfold spec_run. rewrite fold_left_app. simpl. fold (spec_run asp noe dir h).
    assert ((exists a b w, write_of asp o = Some (a, b, w) /\ hit dir a b x y) \/
            (spec_step asp dir (spec_run asp noe dir h) o x y = spec_run asp noe dir h x y /\
             forall w, ~ assigns asp dir o x y w)) as [(a & b & w & Hw & Hh)|[He Hno]].
    { unfold spec_step. setoid_rewrite assigns_spec. destruct (write_of asp o) as [[[a b] w]|] eqn:E.
      - destruct (decide (hit dir a b x y)); [left; eauto 10|]. right. split; [done|]. naive_solver.
      - right. split; [done|]. naive_solver. }
    + left. exists h, o, []. split; [done|]. split.
      * apply assigns_spec. exists a, b. split; [|done]. unfold spec_step. rewrite Hw.
        by rewrite decide_True.
      * intros o' w' Ho. by apply elem_of_nil in Ho.
    + rewrite He. destruct IH as [(h1 & o1 & h2 & -> & Ha & Hno2)|[-> Hno2]].
      * left. exists h1, o1, (h2 ++ [o]). split; [by rewrite <- app_assoc|]. split; [done|].
        intros o' w' [Ho|Ho]%elem_of_app; [by eapply Hno2|].
        apply elem_of_list_singleton in Ho as ->. apply Hno.
      * right. split; [done|]. intros o' w' [Ho|Ho]%elem_of_app; [by eapply Hno2|].
        apply elem_of_list_singleton in Ho as ->. apply Hno.
Qed.

Lemma last_assigned_fun asp noe dir h x y w w' :
  last_assigned asp noe dir h x y w -> last_assigned asp noe dir h x y w' -> w = w'.
Proof.
  assert (forall o w w', assigns asp dir o x y w -> assigns asp dir o x y w' -> w = w') as Hfun.
  { intros o v v' (a & b & H1 & _)%assigns_spec (a' & b' & H2 & _)%assigns_spec. congruence. }
  intros [(h1 & o & h2 & -> & Ha & Hn)|[-> Hn]] [(h1' & o' & h2' & He & Ha' & Hn')|[-> Hn']].
  - assert (h2 = h2' /\ o = o') as [_ ->]; [|by eapply Hfun].
    revert h2' He Hn'. induction h2 as [|z h2 IH] using rev_ind; intros h2' He Hn'.
    + destruct h2' as [|z' h2' _] using rev_ind.
      * apply app_inj_tail in He as [_ ->]. done.
      * rewrite app_comm_cons, app_assoc in He. apply app_inj_tail in He as [_ ->].
        exfalso. eapply Hn'; [|exact Ha]. apply elem_of_app. right. left.
    + destruct h2' as [|z' h2' _] using rev_ind.
      * rewrite app_comm_cons, app_assoc in He. apply app_inj_tail in He as [_ <-].
        exfalso. eapply Hn; [|exact Ha']. apply elem_of_app. right. left.
      * rewrite !app_comm_cons, !app_assoc in He. apply app_inj_tail in He as [He ->].
        destruct (IH) with (h2' := h2') as [-> ->]; [|done| |done].
        -- intros o1 w1 Ho1. apply Hn. apply elem_of_app. by left.
        -- intros o1 w1 Ho1. apply Hn'. apply elem_of_app. by left.
  - exfalso. eapply Hn'; [|exact Ha]. apply elem_of_app. right. left.
  - exfalso. eapply Hn; [|exact Ha']. rewrite He. apply elem_of_app. right. left.
  - done.
Qed.

(** ** Nodes, layers, node-layers after a history *)
Lemma hist_sl asp noe dir fi h n : hist asp noe dir fi h n ->
  forall k x, sl n k x <-> exists o, o ∈ h /\ mentions asp (if decide (asp = 0) then true else fi) o k x.
Proof.
  induction 1 as [|h n o H IH|h n m H IH Hr]; intros k x.
  - split.
    + intros (s & Hs & Hx). simpl in Hs. change ([] :: replicate asp []) with (replicate (S asp) (@nil name)) in Hs.
      apply lookup_replicate in Hs as [-> _]. by apply elem_of_nil in Hx.
    + intros (o & Ho & _). by apply elem_of_nil in Ho.
  - apply hist_inv in H as Hi. destruct Hi. destruct (step n o) as [n' r] eqn:E.
    destruct (step_spec _ _ _ _ inv_S0 inv_L0 E) as (_ & _ & _ & _ & _ & _ & _ & _ & _ & Hsl & _).
    simpl. rewrite Hsl, IH, inv_asp0, inv_fic0. setoid_rewrite elem_of_app.
    setoid_rewrite elem_of_list_singleton. naive_solver.
  - rewrite <- (reorder_sl n m) by done. done.
Qed.

Lemma hist_present_nonfic asp noe dir h n : hist asp noe dir false h n -> asp <> 0 ->
  forall a, present n a <-> exists o, o ∈ h /\ creates asp o a.
Proof.
  intros H Hasp. induction H as [|h n o H IH|h n m H IH Hr]; intros a.
  - rewrite elem_of_iter_node_layers by apply (new_net_inv asp noe dir false).
    split.
    + intros [_ H2]. simpl in H2. rewrite decide_False in H2 by done. specialize (H2 eq_refl).
      by apply elem_of_nil in H2.
    + intros (o & Ho & _). by apply elem_of_nil in Ho.
  - apply hist_inv in H as Hi. destruct Hi. destruct (step n o) as [n' r] eqn:E.
    destruct (step_spec _ _ _ _ inv_S0 inv_L0 E) as (_ & _ & _ & _ & _ & _ & _ & _ & _ & _ & Hp).
    simpl. rewrite Hp, IH, inv_asp0, inv_fic0. rewrite decide_False by done. setoid_rewrite elem_of_app.
    setoid_rewrite elem_of_list_singleton. naive_solver.
  - apply hist_inv in H as Hi. destruct Hi. rewrite (reorder_present n m) by done. done.
Qed.
