(** * Facts about network models: index arithmetic and networks built by calls *)
From Verif Require Export ModelsSpec.
From Verif Require Import MpxIter PropsNet PropsMpx PropsTrans.

(** ** Triangular numbers *)
Fixpoint tri (v : nat) : nat := match v with O => 0 | S v => v + tri v end.
Lemma tri_double v : 2 * tri v = v * (v - 1).
Proof. induction v as [|v IH]; [done|]. simpl tri. destruct v; simpl in *; nia. Qed.
Lemma tri_eq v : v * (v - 1) / 2 = tri v.
Proof. rewrite <- tri_double, Nat.mul_comm. by apply Nat.div_mul. Qed.
Lemma tri_mono a b : a <= b -> tri a <= tri b.
Proof. induction 1; simpl; lia. Qed.
(** A position determines its row and column. *)
Lemma tri_pos_unique v w v' w' : w < v -> w' < v' -> tri v + w = tri v' + w' -> v = v' /\ w = w'.
Proof.
  intros H1 H2 E. assert (v = v') as ->; [|lia]. destruct (Nat.lt_trichotomy v v') as [H|[H|H]]; [|done|].
  - pose proof (tri_mono (S v) v' H). simpl in *. lia.
  - pose proof (tri_mono (S v') v H). simpl in *. lia.
Qed.
Lemma tri_pos_bound v w n : w < v -> v < n <-> tri v + w < tri n /\ w < v.
Proof.
  intros Hw. split.
  - intros H. pose proof (tri_mono (S v) n H). simpl in *. lia.
  - intros [H _]. destruct (decide (v < n)); [done|]. pose proof (tri_mono n v ltac:(lia)). lia.
Qed.
Lemma tri_decompose n k : k < tri n -> exists v w, w < v /\ v < n /\ k = tri v + w.
Proof.
  induction n as [|n IH]; simpl; [lia|]. intros Hk. destruct (decide (k < tri n)) as [H|H].
  - destruct (IH H) as (v & w & ? & ? & ?). exists v, w. lia.
  - exists n, (k - tri n). lia.
Qed.
(** [floor(-0.5+sqrt(0.25+2*k))]: the largest x with (x+0.5)^2 <= 0.25+2*k. *)
Lemma decode_floor k : let x := (fst (decode k) - 1) in
  (2 * x + 1) * (2 * x + 1) <= 8 * k + 1 < (2 * x + 3) * (2 * x + 3).
Proof.
  unfold decode. cbn [fst]. set (z := (8 * Z.of_nat k + 1)%Z).
  pose proof (Z.sqrt_spec z ltac:(lia)) as [H1 H2]. cbv zeta in H1, H2. set (s := Z.sqrt z) in *.
  assert (1 <= s)%Z as Hs. { pose proof (Z.sqrt_le_mono 1 z ltac:(lia)) as H. rewrite Z.sqrt_1 in H. done. }
  pose proof (Z.div_mod (s - 1) 2 ltac:(lia)) as Hd. pose proof (Z.mod_pos_bound (s - 1) 2 ltac:(lia)) as Hm.
  set (q := ((s - 1) / 2)%Z) in *. assert (0 <= q)%Z by lia.
  assert (Hx : Z.of_nat (Z.to_nat (1 + q) - 1) = q) by lia. set (x := Z.to_nat (1 + q) - 1) in *. nia.
Qed.
Lemma decode_spec k : let '(v, w) := decode k in w < v /\ k = tri v + w.
Proof.
  pose proof (decode_floor k) as H. destruct (decode k) as [v w] eqn:E. cbn [fst] in H.
  pose proof (f_equal fst E) as E1. pose proof (f_equal snd E) as E2. unfold decode in E1, E2. cbn [fst snd] in E1, E2.
  assert (w = k - tri v) as ->. { rewrite <- E2, tri_eq, E1. done. }
  assert (1 <= v) as Hv.
  { rewrite <- E1. pose proof (Z.sqrt_nonneg (8 * Z.of_nat k + 1)).
    pose proof (Z.sqrt_le_mono 1 (8 * Z.of_nat k + 1) ltac:(lia)) as Hs. rewrite Z.sqrt_1 in Hs.
    pose proof (Z.div_pos (Z.sqrt (8 * Z.of_nat k + 1) - 1) 2 ltac:(lia) ltac:(lia)). lia. }
  pose proof (tri_double v). cbv zeta in H. destruct v as [|v]; [lia|]. replace (S v - 1) with v in * by lia. split; nia.
Qed.

(** ** The G(n,p) loop *)
Lemma gnp_inner_spec fuel : forall n v w, n - v <= fuel -> 1 <= v -> v <= n ->
  let '(v', w') := gnp_inner fuel n v w in
  v <= v' /\ v' <= n /\ tri v + w = tri v' + w' /\ (v' < n -> w' < v').
Proof.
  induction fuel as [|f IH]; intros n v w Hf Hv Hn; cbn [gnp_inner]; [lia|]. destruct (decide _) as [[H1 H2]|H].
  - specialize (IH n (S v) (w - v) ltac:(lia) ltac:(lia) ltac:(lia)). destruct (gnp_inner f n (S v) (w - v)) as [v' w'].
    simpl tri in IH. lia.
  - lia.
Qed.
(** The position reached in pass [i], starting from position [b]. *)
Fixpoint gpos (s : nat -> nat) (b i : nat) : nat := match i with O => b + s 0 | S i => S (gpos (fun j => s (S j)) (b + s 0) i) end.
Lemma gpos_mono s : forall i b, b <= gpos s b i.
Proof. intros i. revert s. induction i as [|i IH]; intros s b; simpl; [lia|]. specialize (IH (fun j => s (S j)) (b + s 0)). lia. Qed.
Lemma gnp_loop_spec fuel : forall n s i v w1, 1 <= v -> v <= n -> tri n - (tri v + w1) < fuel -> w1 <= v ->
  exists l, gnp_loop fuel n s i v w1 = Ok l /\ NoDup l /\
    forall v' w', (v', w') ∈ l <-> w' < v' /\ v' < n /\ exists k, tri v' + w' = gpos (fun j => s (i + j)) (tri v + w1) k.
Proof.
  induction fuel as [|f IH]; intros n s i v w1 Hv Hn Hf Hw; [lia|]. cbn [gnp_loop]. destruct (decide (v < n)) as [Hlt|Hge].
  2:{ exists []. split; [done|]. split; [constructor|]. intros v' w'. rewrite elem_of_nil. split; [done|].
      intros (H1 & H2 & k & H3). pose proof (gpos_mono (fun j => s (i + j)) k (tri v + w1)). pose proof (tri_mono (S v') n H2). simpl in *.
      assert (v = n) as -> by lia. lia. }
  pose proof (gnp_inner_spec (n - v) n v (w1 + s i) ltac:(lia) Hv ltac:(lia)) as Hi.
  destruct (gnp_inner (n - v) n v (w1 + s i)) as [v1 w2]. destruct Hi as (H1 & H2 & H3 & H4).
  assert (Hgp : forall k, gpos (fun j => s (i + j)) (tri v + w1) (S k) = gpos (fun j => s (S i + j)) (tri v1 + S w2) k).
  { intros k. simpl. rewrite Nat.add_0_r. replace (tri v1 + S w2) with (S (tri v + w1 + s i)) by lia.
    assert (forall b t t', (forall j, t j = t' j) -> S (gpos t b k) = gpos t' (S b) k) as He.
    { clear. induction k as [|k IH]; intros b t t' Ht; simpl; [rewrite Ht; lia|]. f_equal. rewrite <- (Ht 0). apply IH. intros j. apply Ht. }
    apply He. intros j. f_equal. lia. }
  destruct (decide (v1 < n)) as [Hlt1|Hge1].
  - specialize (H4 Hlt1). pose proof (proj1 (tri_pos_bound v1 w2 n H4) Hlt1) as [Hb _].
    destruct (IH n s (S i) v1 (S w2) ltac:(lia) ltac:(lia) ltac:(lia) ltac:(lia)) as (l & -> & Hnd & Hl). simpl. eexists. split; [done|].
    split.
    + constructor; [|done]. intros (_ & _ & k & Hk)%Hl. pose proof (gpos_mono (fun j => s (S i + j)) k (tri v1 + S w2)). lia.
    + intros v' w'. rewrite elem_of_cons, Hl. split.
      * intros [[= -> ->]|(? & ? & k & Hk)]; [split; [done|]; split; [done|]; exists 0; simpl; rewrite Nat.add_0_r; lia|].
        split; [done|]. split; [done|]. exists (S k). rewrite Hgp. done.
      * intros (Hw' & Hv' & [|k] & Hk).
        -- left. simpl in Hk. rewrite Nat.add_0_r in Hk. destruct (tri_pos_unique v' w' v1 w2) as [-> ->]; [done|done|lia|done].
        -- right. split; [done|]. split; [done|]. exists k. rewrite <- Hgp. done.
  - assert (v1 = n) as -> by lia. exists []. split.
    { destruct f; simpl; by rewrite decide_False by lia. }
    split; [constructor|]. intros v' w'. rewrite elem_of_nil. split; [done|]. intros (Hw' & Hv' & k & Hk).
    pose proof (proj1 (tri_pos_bound v' w' n Hw') Hv') as [Hb _].
    destruct k as [|k]; [simpl in Hk; rewrite Nat.add_0_r in Hk; lia|]. rewrite Hgp in Hk. pose proof (gpos_mono (fun j => s (S i + j)) k (tri n + S w2)). lia.
Qed.
(** Every finite increasing sequence of positions comes from some skips. *)
Fixpoint skips_of (b : nat) (l : list nat) (big : nat) (i : nat) : nat :=
  match l, i with
  | [], _ => big
  | x :: _, 0 => x - b
  | x :: l, S i => skips_of (S x) l big i
  end.
Lemma gpos_ext s t : forall k b, (forall j, s j = t j) -> gpos s b k = gpos t b k.
Proof. intros k. revert s t. induction k as [|k IH]; intros s t b H; simpl; rewrite H; [done|]. f_equal. apply IH. intros j. apply H. Qed.
Lemma gpos_shift s : forall k b, S (gpos s b k) = gpos s (S b) k.
Proof. intros k. revert s. induction k as [|k IH]; intros s b; simpl; [lia|]. f_equal. apply IH. Qed.
Lemma skips_of_spec l : forall b big, StronglySorted lt l -> (forall x, x ∈ l -> b <= x) ->
  forall y, y < big -> (exists k, gpos (skips_of b l big) b k = y) <-> y ∈ l.
Proof.
  induction l as [|x l IH]; intros b big Hs Hb y Hy.
  - split; [|by intros ?%elem_of_nil]. intros [k Hk]. exfalso. destruct k as [|k]; simpl in Hk; [lia|].
    pose proof (gpos_mono (fun _ => big) k (b + big)). lia.
  - apply StronglySorted_inv in Hs as [Hs Hx]. rewrite Forall_forall in Hx.
    specialize (IH (S x) big Hs ltac:(intros z Hz; specialize (Hx z Hz); lia) y Hy).
    rewrite elem_of_cons, <- IH. pose proof (Hb x ltac:(left)) as Hbx. split.
    + intros [[|k] Hk]; simpl in Hk; [left; lia|]. right. exists k. rewrite <- Hk, gpos_shift. f_equal; lia.
    + intros [->|[k Hk]]; [exists 0; simpl; lia|]. exists (S k). simpl. rewrite gpos_shift. rewrite <- Hk. f_equal; lia.
Qed.

(** ** Networks filled by calls *)
Definition gnode (cs : list gcall) (x : name) : Prop := exists g, g ∈ cs /\ match g with GAdd y => x = y | GLink y z => x = y \/ x = z end.
Definition glink (cs : list gcall) (x y : name) : Prop := GLink x y ∈ cs \/ GLink y x ∈ cs.
Lemma g_op_write g : write_of 0 (g_op g) = match g with GAdd _ => None | GLink x y => Some ([x], [y], 1%Z) end.
Proof. by destruct g. Qed.
Lemma g_op_mentions g k x fi : mentions 0 fi (g_op g) k x <-> k = 0 /\ match g with GAdd y => x = y | GLink y z => x = y \/ x = z end.
Proof.
  destruct g as [y|y z]; cbn [g_op mentions].
  - split; [|by left]. intros [?|[(_ & ? & _)|(_ & ? & _)]]; [done|lia|lia].
  - split.
    + intros (a & b & w & Hw & Hx). apply writes_spec in Hw. change (Some ([y], [z], 1%Z) = Some (a, b, w)) in Hw. injection Hw as <- <- <-.
      destruct k as [|k]; [|by destruct Hx]. simpl in Hx. split; [done|]. destruct Hx as [[= ->]|[= ->]]; auto.
    + intros [-> Hx]. exists [y], [z], 1%Z. split; [by apply writes_spec|]. simpl. destruct Hx as [-> | ->]; auto.
Qed.
Lemma gcalls_net cs fi : exists n, build (new_net 0 0 false fi) (g_op <$> cs) = Ok n /\ simple_net n (gnode cs) (glink cs).
Proof.
  destruct (build_new_ok 0 0 false fi (g_op <$> cs)) as (n & Hb & Hh).
  { apply Forall_fmap, Forall_forall. intros [x|x y] _; [done|]. exists [x], [y], 1%Z. split; [done|]. by left. }
  exists n. split; [done|]. destruct (hist_inv _ _ _ _ _ _ Hh) as [HS HL Ha Hn Hd Hf].
  assert (reachable n) as Hr by by repeat eexists. pose proof (reachable_good _ Hr) as Hg.
  assert (Hrd : forall x y, rd n [x] [y] = 1%Z /\ glink cs x y \/ rd n [x] [y] = 0%Z /\ ~ glink cs x y).
  { intros x y. rewrite (hist_refines _ _ _ _ _ _ Hh). unfold spec_run.
    assert (forall o a b w, o ∈ g_op <$> cs -> write_of 0 o = Some (a, b, w) -> hit false a b [x] [y] -> w = 1%Z /\ glink cs x y) as Hin.
    { intros o a b w (g & -> & Hgi)%elem_of_list_fmap. rewrite g_op_write. destruct g as [z|z t]; [done|]. intros [= <- <- <-] Hh'. split; [done|].
      destruct Hh' as [[[= ->] [= ->]]|(_ & [= ->] & [= ->])]; [by left|by right]. }
    destruct (decide (GLink x y ∈ cs \/ GLink y x ∈ cs)) as [Hl|Hl].
    - left. split; [|done]. apply spec_fold_agree; [by intros o a b w Ho Hw Hh'; apply (Hin o a b w)|].
      destruct Hl as [Hl|Hl].
      + exists (g_op (GLink x y)), [x], [y], 1%Z. split; [by apply elem_of_list_fmap_1|]. split; [done|]. by left.
      + exists (g_op (GLink y x)), [y], [x], 1%Z. split; [by apply elem_of_list_fmap_1|]. split; [done|]. by right.
    - right. split; [|done]. apply spec_fold_miss. intros o a b w Ho Hw Hh'. apply Hl. by apply (Hin o a b w). }
  assert (forall x y, linked n [x] [y] <-> glink cs x y) as Hlk.
  { intros x y. rewrite linked_rd, Hn by done. destruct (Hrd x y) as [[-> ?]|[-> ?]]; split; done || lia. }
  split_and!; try done.
  - intros x. rewrite has_elem_sl, (hist_sl _ _ _ _ _ _ Hh). unfold gnode. split.
    + intros (o & (g & -> & Hgi)%elem_of_list_fmap & Hm). apply g_op_mentions in Hm as [_ Hm]. eauto.
    + intros (g & Hgi & Hm). exists (g_op g). split; [by apply elem_of_list_fmap_1|]. by apply g_op_mentions.
  - intros x y Hl%Hlk. apply reads_rd; [by rewrite Ha|by rewrite Ha|]. by destruct (Hrd x y) as [[-> ?]|[-> ?]].
Qed.
Lemma simple_net_ext n N N' P P' : simple_net n N P -> (forall x, N x <-> N' x) -> (forall x y, P x y <-> P' x y) -> simple_net n N' P'.
Proof.
  intros (H1 & H2 & H3 & H4 & H5 & H6 & H7) HN HP. split_and!; try done.
  - intros x. by rewrite H5.
  - intros x y. by rewrite H6.
Qed.
Lemma simple_edges n N P L : simple_net n N P -> lists_pairs L P -> length (edges n) = length L.
Proof.
  intros (Hr & Ha & Hd & Hn & _ & Hl & _) (Hnd & Hanti & HL). pose proof (reachable_good _ Hr) as Hg.
  set (u := fun p : name * name => ([p.1], [p.2]) : nl * nl). set (v := fun p : name * name => ([p.2], [p.1]) : nl * nl).
  assert (pairs n ≡ₚ (u <$> L) ++ (v <$> L)) as Hp.
  { apply NoDup_same_perm; [by apply NoDup_pairs| |].
    - apply NoDup_app. split; [|split].
      + apply NoDup_fmap; [|done]. intros [x y] [x' y']. unfold u. simpl. congruence.
      + intros [a b] ([x y] & E & Hxy)%elem_of_list_fmap ([x' y'] & E' & Hxy')%elem_of_list_fmap. unfold u, v in *. simpl in *.
        apply (Hanti x y Hxy). by replace (y, x) with (x', y') by congruence.
      + apply NoDup_fmap; [|done]. intros [x y] [x' y']. unfold v. simpl. congruence.
    - intros [a b]. rewrite elem_of_pairs, elem_of_app, !elem_of_list_fmap by done. rewrite <- linked_lnk by done. split.
      + intros Hab. pose proof Hab as (Hla & Hlb & _). rewrite Ha in Hla, Hlb.
        destruct a as [|x [|? ?]], b as [|y [|? ?]]; try done. apply Hl, HL in Hab as [H|H]; [left; by exists (x, y)|right; by exists (y, x)].
      + intros [([x y] & [= -> ->] & H)|([x y] & [= -> ->] & H)]; apply Hl, HL; auto. }
  assert (filter is_loop (pairs n) = []) as H0.
  { destruct (filter is_loop (pairs n)) as [|[a b] r] eqn:E; [done|]. exfalso.
    assert ((a, b) ∈ filter is_loop (pairs n)) as Hin by (rewrite E; left). apply elem_of_list_filter in Hin as [Hlo Hin].
    unfold is_loop in Hlo. simpl in Hlo. subst b. rewrite Hp, elem_of_app, !elem_of_list_fmap in Hin.
    destruct Hin as [([x y] & E' & H)|([x y] & E' & H)]; unfold u, v in E'; simpl in E'; (assert (x = y) as -> by congruence); by apply (Hanti y y). }
  pose proof (edges_len_pairs n Hg) as He. rewrite Hd, edges_len_exact, H0, Hp, app_length, !fmap_length in He by done. simpl in He. lia.
Qed.

(** ** Multiplex networks with one aspect filled by calls *)
Definition msafe (p : mpx) (o : mop) : Prop :=
  match o with
  | MSet [x; y; l] _ => x <> y
  | MSet [x; y; l; l'] _ => x <> y /\ l = l'
  | MASet (LBare l) [x; y] w => mhas p 1 l /\ (x <> y \/ w <> 0%Z)
  | MAddNode _ None => True
  | MAddLayer _ k => k = 1
  | MAAddNode (LBare l) _ => mhas p 1 l
  | _ => False
  end.
Definition okc (o : mop) : call := (o, Ok tt).
Lemma hist_mono c dir noe fi h p e p' k x : mhist [c] dir noe fi h p -> mhist [c] dir noe fi (h ++ e) p' -> mhas p k x -> mhas p' k x.
Proof.
  intros H H' Hx. apply (C51_nodes_layers_exact _ _ _ _ _ _ H'); [done|].
  apply (C51_nodes_layers_exact _ _ _ _ _ _ H) in Hx as (e' & He & Hm); [|done]. exists e'. split; [apply elem_of_app; by left|done].
Qed.
Lemma mhas_pA c dir noe fi h p l : mhist [c] dir noe fi h p -> mhas p 1 l -> exists m, pA p (LBare l) = Some m.
Proof.
  intros H%mhist_inv Hl. apply lay_pA; [apply H| |]; unfold lay_in, full_form; rewrite (pinv_asp _ _ _ _ _ _ H); [|done]. split; [done|]. by apply psl_mhas.
Qed.
Lemma mstep_safe c dir noe fi h p o : mhist [c] dir noe fi h p -> msafe p o -> exists p', mstep p o = (p', Ok tt).
Proof.
  intros H Hs. pose proof (mhist_inv _ _ _ _ _ _ H) as Hi. pose proof (pi_wf _ _ _ _ _ _ Hi) as Hw. pose proof (pinv_asp _ _ _ _ _ _ Hi) as Has.
  assert (Hset : forall x y l item w, names_link 1 item [x; l] [y; l] -> x <> y -> exists p', mstep p (MSet item w) = (p', Ok tt)).
  { intros x y l item w Hn Hne. destruct (mstep p (MSet item w)) as [p' r] eqn:E. exists p'. f_equal.
    by destruct (C21_accepted_write _ _ _ _ _ _ _ _ _ _ _ _ H ltac:(done) Hn eq_refl Hne E). }
  destruct o as [item w| |[l|] item w|x [l|]|l k|[l|] x]; simpl in Hs; try done.
  - destruct item as [|x [|y [|l [|l' [|]]]]]; try done.
    + apply (Hset x y l); [exact (names_short 1 x y [l] eq_refl)|done].
    + destruct Hs as [Hne <-]. apply (Hset x y l); [exact (names_link_full 1 [x; l] [y; l] eq_refl eq_refl)|done].
  - destruct item as [|x [|y [|]]]; try done. destruct Hs as [Hl Hw0]. destruct (mhas_pA _ _ _ _ _ _ _ H Hl) as [m Hm].
    destruct (pi_view _ _ _ _ _ _ Hi _ _ Hm) as (g & Hg & _). rewrite <- (pi_dir _ _ _ _ _ _ Hi) in Hg.
    destruct (ASet_meff p (LBare l) x y w m g Hw Hm Hg) as (p' & r & E & _ & [-> |(_ & -> & -> & _)]); [by exists p'|]. by destruct Hw0.
  - destruct (padd_node_spec 1 p x None Hw) as (p' & E & _). exists p'. simpl. exact E.
  - subst k. destruct (eff_add_layer p l 1 Hw) as (p' & E & _); [by rewrite Has|]. by exists p'.
  - destruct (mhas_pA _ _ _ _ _ _ _ H Hs) as [m Hm]. eexists. simpl. by apply A_add_node_eq.
Qed.
Lemma do_mop_safe c dir noe fi h p o : mhist [c] dir noe fi h p -> msafe p o ->
  exists p', do_mop p o = Ok p' /\ mhist [c] dir noe fi (h ++ [okc o]) p'.
Proof.
  intros H Hs. destruct (mstep_safe _ _ _ _ _ _ _ H Hs) as [p' E]. exists p'. unfold do_mop. rewrite E. split; [done|]. by econstructor.
Qed.
Lemma msafe_mono p p' o : (forall l, mhas p 1 l -> mhas p' 1 l) -> msafe p o -> msafe p' o.
Proof.
  intros Hm. destruct o as [item w| |[l|] item w|x [l|]|l k|[l|] x]; simpl; try done; [|by auto].
  destruct item as [|x [|y [|]]]; try done. intros [? ?]. auto.
Qed.
Lemma mbuild_safe c dir noe fi os : forall h p, mhist [c] dir noe fi h p -> Forall (msafe p) os ->
  exists p', mbuild p os = Ok p' /\ mhist [c] dir noe fi (h ++ (okc <$> os)) p'.
Proof.
  induction os as [|o os IH]; intros h p H Hs; cbn; [exists p; by rewrite app_nil_r|].
  apply Forall_cons in Hs as [Ho Hs]. destruct (do_mop_safe _ _ _ _ _ _ _ H Ho) as (p1 & -> & H1).
  destruct (IH _ p1 H1) as (p' & Hb & Hh).
  { apply (Forall_impl _ _ _ Hs). intros o'. apply msafe_mono. intros l. by eapply hist_mono. }
  exists p'. split; [done|]. by rewrite <- app_assoc in Hh.
Qed.

(** ** single_layer_er *)
Lemma rmapM_ok {A B} (f : A -> res B) (g : A -> B) l : (forall x, x ∈ l -> f x = Ok (g x)) -> rmapM f l = Ok (g <$> l).
Proof.
  induction l as [|x l IH]; intros H; [done|]. cbn [rmapM]. rewrite (H x) by left. rewrite IH by (intros; apply H; by right). done.
Qed.
Definition nth_name (nodes : list name) (i : nat) : name := default (NInt 0) (nodes !! i).
Definition npair (nodes : list name) (vw : nat * nat) : name * name := (nth_name nodes (vw.1), nth_name nodes (vw.2)).
Definition glk (q : name * name) : gcall := GLink (q.1) (q.2).
Lemma nth_name_lookup nodes i : i < length nodes -> nodes !! i = Some (nth_name nodes i).
Proof. intros H. unfold nth_name. destruct (lookup_lt_is_Some_2 _ _ H) as [x ->]. done. Qed.
Lemma link_nodes_ok nodes l : (forall v w, (v, w) ∈ l -> w < v /\ v < length nodes) ->
  rmapM (link_nodes nodes) l = Ok (glk <$> (npair nodes <$> l)).
Proof.
  intros H. rewrite <- list_fmap_compose. apply rmapM_ok. intros [v w] Hvw. destruct (H v w Hvw). unfold link_nodes, node_at. cbn [fst snd].
  rewrite !nth_name_lookup by lia. done.
Qed.
Lemma gnode_app cs1 cs2 x : gnode (cs1 ++ cs2) x <-> gnode cs1 x \/ gnode cs2 x.
Proof. unfold gnode. setoid_rewrite elem_of_app. naive_solver. Qed.
Lemma glink_adds nodes cs x y : glink ((GAdd <$> nodes) ++ cs) x y <-> glink cs x y.
Proof.
  unfold glink. rewrite !elem_of_app. assert (forall a b, ~ GLink a b ∈ (GAdd <$> nodes)) as H by by intros a b (? & ? & _)%elem_of_list_fmap.
  split; [|by intros [?|?]; auto]. intros [[?|?]|[?|?]]; auto; exfalso; by eapply H.
Qed.
Lemma gnode_adds nodes x : gnode (GAdd <$> nodes) x <-> x ∈ nodes.
Proof.
  unfold gnode. split; [by intros (g & (y & -> & Hy)%elem_of_list_fmap & ->)|]. intros Hx. exists (GAdd x). split; [by apply elem_of_list_fmap_1|done].
Qed.
Lemma gnode_links (L : list (name * name)) x : gnode (glk <$> L) x <-> exists q, q ∈ L /\ (x = q.1 \/ x = q.2).
Proof.
  unfold gnode. split; [intros (g & (q & -> & Hq)%elem_of_list_fmap & Hx); by exists q|]. intros (q & Hq & Hx).
  exists (glk q). split; [by apply elem_of_list_fmap_1|done].
Qed.
Lemma glink_links (L : list (name * name)) x y : glink (glk <$> L) x y <-> (x, y) ∈ L \/ (y, x) ∈ L.
Proof.
  assert (forall a b, GLink a b ∈ (glk <$> L) <-> (a, b) ∈ L) as H.
  { intros a b. rewrite elem_of_list_fmap. split; [intros ([a' b'] & [= -> ->] & ?); done|]. intros Hab. by exists (a, b). }
  unfold glink. by rewrite !H.
Qed.
Lemma npair_pairs nodes I : NoDup nodes -> NoDup I -> (forall v w, (v, w) ∈ I -> w < v /\ v < length nodes) ->
  NoDup (npair nodes <$> I) /\ (forall x y, (x, y) ∈ npair nodes <$> I -> (y, x) ∉ npair nodes <$> I) /\
  forall x y, (x, y) ∈ npair nodes <$> I <-> exists v w, (v, w) ∈ I /\ nodes !! v = Some x /\ nodes !! w = Some y.
Proof.
  intros Hnd HI Hlt.
  assert (Hin : forall x y, (x, y) ∈ npair nodes <$> I <-> exists v w, (v, w) ∈ I /\ nodes !! v = Some x /\ nodes !! w = Some y).
  { intros x y. rewrite elem_of_list_fmap. split.
    - intros ([v w] & [= -> ->] & Hvw). destruct (Hlt v w Hvw). exists v, w. cbn [fst snd]. rewrite !nth_name_lookup by lia. done.
    - intros (v & w & Hvw & H1 & H2). exists (v, w). split; [|done]. unfold npair, nth_name. cbn [fst snd]. by rewrite H1, H2. }
  split; [|split; [|done]].
  - clear Hin. induction HI as [|[v w] I Hni HI IH]; [constructor|]. rewrite fmap_cons. constructor; [|by apply IH; intros; apply Hlt; right].
    intros ([v' w'] & E & Hin)%elem_of_list_fmap. apply Hni. destruct (Hlt v w ltac:(left)). destruct (Hlt v' w' ltac:(by right)).
    unfold npair in E. cbn [fst snd] in E. injection E as E1 E2.
    assert (v = v') as ->. { apply (NoDup_lookup _ _ _ (nth_name nodes v') Hnd); [rewrite <- E1|]; apply nth_name_lookup; lia. }
    assert (w = w') as ->; [|done]. { apply (NoDup_lookup _ _ _ (nth_name nodes w') Hnd); [rewrite <- E2|]; apply nth_name_lookup; lia. }
  - intros x y (v & w & H1 & H2 & H3)%Hin (v' & w' & H1' & H2' & H3')%Hin.
    destruct (Hlt _ _ H1), (Hlt _ _ H1'). assert (v = w') by by apply (NoDup_lookup nodes _ _ x). assert (w = v') by by apply (NoDup_lookup nodes _ _ y). lia.
Qed.
Lemma sum_gpos s : forall i b, gpos s b i = i + b + sum_list (s <$> seq 0 (S i)).
Proof.
  intros i. revert s. induction i as [|i IH]; intros s b; [simpl; lia|]. cbn [gpos]. rewrite IH. change (seq 0 (S (S i))) with (0 :: seq 1 (S i)).
  rewrite <- (fmap_S_seq 0 (S i)), fmap_cons, <- list_fmap_compose. unfold compose. simpl. lia.
Qed.
Lemma er_calls nodes par : NoDup nodes -> er_par_ok (length nodes) par ->
  exists cs, single_layer_er nodes par = Ok cs /\ (forall x, gnode cs x <-> x ∈ nodes) /\ (forall x y, glink cs x y <-> er_linked nodes par x y) /\
    (forall x y, GLink x y ∈ cs -> x <> y) /\
    match par with ErEdges m _ => exists L, lists_pairs L (glink cs) /\ length L = m | _ => True end.
Proof.
  intros Hnd Hok. set (n := length nodes) in *.
  assert (Hgen : forall I, NoDup I -> (forall v w, (v, w) ∈ I <-> w < v /\ v < n /\ drawn par (tri v + w)) ->
    let cs := (GAdd <$> nodes) ++ (glk <$> (npair nodes <$> I)) in
    rmapM (link_nodes nodes) I = Ok (glk <$> (npair nodes <$> I)) /\
    (forall x, gnode cs x <-> x ∈ nodes) /\ (forall x y, glink cs x y <-> er_linked nodes par x y) /\
    (forall x y, GLink x y ∈ cs -> x <> y) /\ lists_pairs (npair nodes <$> I) (glink cs)).
  { intros I HI Hin cs. assert (Hlt : forall v w, (v, w) ∈ I -> w < v /\ v < length nodes) by by intros v w (? & ? & _)%Hin.
    destruct (npair_pairs nodes I Hnd HI Hlt) as (H1 & H2 & H3). split; [by apply link_nodes_ok|]. split; [|split; [|split; [|split; [|split]]]]; [| | |done|done|].
    - intros x. unfold cs. rewrite gnode_app, gnode_adds, gnode_links. split; [|by left]. intros [?|([a b] & Hq & Hx)]; [done|].
      apply H3 in Hq as (v & w & _ & Ha & Hb). destruct Hx as [-> | ->]; by eapply elem_of_list_lookup_2.
    - intros x y. unfold cs. rewrite glink_adds, glink_links, !H3. unfold er_linked. setoid_rewrite tri_eq. split.
      + intros [(v & w & (? & ? & ?)%Hin & ? & ?)|(v & w & (? & ? & ?)%Hin & ? & ?)]; exists v, w; auto.
      + intros (v & w & Hw & Hd & [[Hx Hy]|[Hx Hy]]); [left|right]; exists v, w; (split; [apply Hin; split; [done|]; split; [|done]|done]); by eapply lookup_lt_Some.
    - intros x y Hxy ->. unfold cs in Hxy. assert (glink cs y y) as Hg by by left. unfold cs in Hg. rewrite glink_adds, glink_links in Hg. destruct Hg as [Hg|Hg]; by apply (H2 y y).
    - intros x y. unfold cs. by rewrite glink_adds, glink_links. }
  destruct par as [p s|m k].
  - destruct Hok as [H0 H1]. unfold single_layer_er. fold n. destruct (Qeq_bool p 1) eqn:E1.
    + apply Qeq_bool_eq in E1. eexists. split; [done|]. assert (forall x y, GLink x y ∈ (nodes ≫= (fun x => nodes ≫= (fun y => if decide (x <> y) then [GLink x y] else []))) <-> x ∈ nodes /\ y ∈ nodes /\ x <> y) as Hin.
      { intros x y. rewrite elem_of_list_bind. setoid_rewrite elem_of_list_bind. split.
        - intros (a & (b & Hab & Hb) & Ha). destruct (decide _); [|by apply elem_of_nil in Hab]. apply elem_of_list_singleton in Hab. by injection Hab as -> ->.
        - intros (Hx & Hy & Hne). exists x. split; [|done]. exists y. split; [|done]. rewrite decide_True by done. left. }
      split; [|split; [|split; [|done]]].
      * intros x. rewrite gnode_app, gnode_adds. split; [|by left]. intros [?|(g & (a & (b & Hab & Hb)%elem_of_list_bind & Ha)%elem_of_list_bind & Hx)]; [done|].
        destruct (decide _); [|by apply elem_of_nil in Hab]. apply elem_of_list_singleton in Hab as ->. by destruct Hx as [-> | ->].
      * intros x y. rewrite glink_adds. unfold glink. rewrite !Hin. unfold er_linked. split.
        -- intros Hxy. assert (x ∈ nodes /\ y ∈ nodes /\ x <> y) as (Hx & Hy & Hne) by naive_solver. clear Hxy.
           apply elem_of_list_lookup in Hx as [i Hi], Hy as [j Hj]. assert (i <> j) by congruence. assert (i < j \/ j < i) as [Hij|Hij] by lia.
           ++ exists j, i. split; [done|]. split; [by left|]. auto.
           ++ exists i, j. split; [done|]. split; [by left|]. auto.
        -- intros (v & w & Hw & _ & Hxy). assert (x ∈ nodes /\ y ∈ nodes /\ x <> y) as (Hx & Hy & Hne); [|by left].
           destruct Hxy as [[Hx Hy]|[Hx Hy]]; (split; [by eapply elem_of_list_lookup_2|]; split; [by eapply elem_of_list_lookup_2|]); intros ->.
           ++ assert (v = w) by by apply (NoDup_lookup nodes _ _ y). lia.
           ++ assert (v = w) by by apply (NoDup_lookup nodes _ _ y). lia.
      * intros x y [(? & ? & _)%elem_of_list_fmap|Hxy]%elem_of_app; [done|]. by apply Hin.
    + assert (Qeq_bool p 0 = false) as E0. { destruct (Qeq_bool p 0) eqn:E; [|done]. apply Qeq_bool_eq in E. rewrite E in H0. by apply Qlt_irrefl in H0. }
      assert (forall pos, drawn (ErP p s) pos <-> exists i, pos = gpos s 0 i) as Hdr.
      { intros pos. unfold drawn. setoid_rewrite sum_gpos. setoid_rewrite Nat.add_0_r. split; [|by right]. intros [E|?]; [|done]. apply Qeq_bool_iff in E. congruence. }
      destruct (decide (n <= 1)) as [Hn|Hn].
      * destruct (Hgen [] (NoDup_nil_2)) as (_ & G2 & G3 & G4 & _).
        { intros v w. rewrite elem_of_nil. split; [done|]. lia. }
        eexists. split; [done|]. simpl in *. rewrite app_nil_r in *. done.
      * rewrite E0, (proj2 (Qle_bool_iff p 1) H1).
        destruct (gnp_loop_spec (n * n) n s 0 1 0) as (l & -> & Hl & Hin); [lia|lia| |lia|].
        { pose proof (tri_double n). simpl tri. nia. }
        destruct (Hgen l Hl) as (G1 & G2 & G3 & G4 & _).
        { intros v w. rewrite Hin, Hdr. simpl. done. }
        simpl. rewrite G1. simpl. eexists. done.
  - destruct Hok as (Hlen & Hk & Hkb). unfold single_layer_er. fold n.
    assert (m <= n * (n - 1) / 2) as Hm.
    { rewrite <- Hlen. rewrite <- (seq_length (n * (n - 1) / 2) 0). apply sub_len_le; [done|]. intros i Hi. apply elem_of_seq. specialize (Hkb i Hi). lia. }
    rewrite decide_True by done. destruct (Hgen (decode <$> k)) as (G1 & G2 & G3 & G4 & G5).
    + apply NoDup_fmap_2_strong; [|done]. intros i j _ _ E. pose proof (decode_spec i) as Hi. pose proof (decode_spec j) as Hj. rewrite E in Hi.
      destruct (decode j) as [v w]. lia.
    + intros v w. rewrite elem_of_list_fmap. unfold drawn. split.
      * intros (i & E & Hi). pose proof (decode_spec i) as Hd. rewrite <- E in Hd. destruct Hd as [Hw Hd]. split; [done|]. specialize (Hkb i Hi). rewrite tri_eq in Hkb.
        split; [|by rewrite <- Hd]. apply (tri_pos_bound v w n Hw). by rewrite <- Hd.
      * intros (Hw & Hv & Hd). exists (tri v + w). split; [|done]. pose proof (decode_spec (tri v + w)) as H. destruct (decode (tri v + w)) as [v' w'].
        destruct H as [H1 H2]. by destruct (tri_pos_unique v w v' w' Hw H1 H2) as [-> ->].
    + rewrite G1. simpl. eexists. split; [done|]. split; [done|]. split; [done|]. split; [done|]. eexists. split; [exact G5|]. by rewrite !fmap_length.
Qed.

(** ** Reading multiplex networks in which only ones have been written *)
Lemma mones c fi h p : mhist [c] false 0 fi h p ->
  (forall e l x y w, e ∈ h -> mwrites 1 e (LBare l) x y w -> w = 1%Z) ->
  (forall l x w, (MASet l [x; x] w, Ok tt) ∉ h) ->
  forall l, layer_links p l (fun x y => exists e, e ∈ h /\ massigns 1 false e (LBare l) x y 1).
Proof.
  intros H H1 Hself l. split.
  - intros x y Hne. pose proof (C17_read_last_write _ _ _ _ _ H (LBare l) x y) as Hr. simpl in Hr. split.
    + intros (e & He & Ha). apply Hr; [done|done|].
      destruct (C17_reads_total _ _ _ _ _ _ H (LBare l) x y) as [w Hw]; [done|done|].
      assert (mreads p [x; l] [y; l] w) as Hw'.
      { exists [x; y; l]. pose proof (pinv_asp _ _ _ _ _ _ (mhist_inv _ _ _ _ _ _ H)) as Has. rewrite Has.
        split; [exact (names_short 1 x y [l] eq_refl)|]. apply Hw. exact (names_short 1 x y [l] eq_refl). }
      pose proof (proj1 (Hr w eq_refl Hne) Hw') as Hl. assert (w = 1%Z) as ->; [|done].
      destruct Hl as [(h1 & e1 & h2 & -> & Has & _)|[-> Hno]].
      * destruct Has as [Hs|[_ Hs]]; (eapply H1; [|exact Hs]); apply elem_of_app; right; left.
      * exfalso. by apply (Hno e 1%Z He).
    + intros Hno. apply Hr; [done|done|]. right. split; [done|]. intros e w He Ha. apply Hno. exists e. split; [done|].
      assert (w = 1%Z) as ->; [|done]. destruct Ha as [Ha|[_ Ha]]; by eapply H1.
  - intros x Hx. apply (C19_self_condition _ _ _ _ _ _ [x; l] H); [done|done|]. intros l' i w. apply Hself.
Qed.
Lemma layer_links_ext p l P P' : layer_links p l P -> (forall x y, x <> y -> P x y <-> P' x y) -> layer_links p l P'.
Proof.
  intros [H1 H2] HP. split; [|done]. intros x y Hne. rewrite <- HP by done. by apply H1.
Qed.
Lemma mwrites_g l g l' x y w : mwrites 1 (okc (g_mop l g)) (LBare l') x y w <-> l = l' /\ w = 1%Z /\ g = GLink x y.
Proof.
  unfold mwrites. destruct g as [z|a b]; cbn [okc g_mop fst snd].
  - split; [by intros [_ ?]|by intros (_ & _ & ?)].
  - split; [intros (_ & <- & [= ->] & [= -> ->] & _); done|]. by intros (-> & -> & [= -> ->]).
Qed.
Lemma names_link1 x y l i j l' : names_link 1 [x; y; l] [i; l'] [j; l'] <-> x = i /\ y = j /\ l = l'.
Proof.
  split.
  - intros H. inversion H as [item a b H1|i' j' ss H1]; subst; done.
  - intros (-> & -> & ->). exact (names_short 1 i j [l'] eq_refl).
Qed.
Lemma names_link2 x y l r a b : names_link 1 [x; y; l; r] a b <-> a = [x; l] /\ b = [y; r].
Proof.
  split.
  - intros (Ha & Hb & [[_ H]|[H _]])%names_link_inv; [|done].
    destruct a as [|a1 [|a2 [|]]], b as [|b1 [|b2 [|]]]; try done. simpl in H. by injection H as <- <- <- <-.
  - intros [-> ->]. exact (names_link_full 1 [x; l] [y; r] eq_refl eq_refl).
Qed.

(** ** Undirected networks filled by item assignments *)
Lemma sets_net asp fi os (W : nl -> nl -> Z) :
  (forall o, o ∈ os -> exists a b w, o = OpSet (interleave a b) w /\ length a = S asp /\ length b = S asp /\ a <> b /\ W a b = w /\ W b a = w) ->
  (forall x y, W x y <> 0%Z -> exists a b w, OpSet (interleave a b) w ∈ os /\ length a = S asp /\ length b = S asp /\ (a = x /\ b = y \/ a = y /\ b = x)) ->
  exists n, build (new_net asp 0 false fi) os = Ok n /\ reachable n /\ aspects n = asp /\ directed n = false /\ noEdge n = 0%Z /\
    (forall x y, rd n x y = W x y) /\
    (forall k x, has_elem n k x <-> exists a b w, OpSet (interleave a b) w ∈ os /\ length a = S asp /\ length b = S asp /\ (a !! k = Some x \/ b !! k = Some x)).
Proof.
  intros Hos HW. destruct (build_new_ok asp 0 false fi os) as (n & Hb & Hh).
  { apply Forall_forall. intros o (a & b & w & -> & Ha & Hb & Hne & _)%Hos. exists a, b, w. split; [by apply write_of_interleave|]. by right; right. }
  exists n. split; [done|]. destruct (hist_inv _ _ _ _ _ _ Hh) as [HS HL Ha Hn Hd Hf]. split; [by repeat eexists|].
  split; [done|]. split; [done|]. split; [done|]. split.
  - intros x y. rewrite (hist_refines _ _ _ _ _ _ Hh). unfold spec_run.
    assert (forall o a b w, o ∈ os -> write_of asp o = Some (a, b, w) -> hit false a b x y -> w = W x y) as Hin.
    { intros o a b w (a' & b' & w' & -> & Ha' & Hb' & _ & HW1 & HW2)%Hos Hw Hi. rewrite write_of_interleave in Hw by done. injection Hw as -> -> ->.
      destruct Hi as [[-> ->]|(_ & -> & ->)]; done. }
    destruct (decide (W x y = 0%Z)) as [E|E].
    + assert (forall s, s x y = 0%Z -> fold_left (spec_step asp false) os s x y = 0%Z) as Hz; [|by rewrite Hz].
      clear -Hin E. induction os as [|o os IH]; intros s Hs; [done|]. cbn [fold_left]. apply IH.
      * intros. eapply Hin; [by right|done|done].
      * unfold spec_step. destruct (write_of asp o) as [[[a b] w]|] eqn:Ew; [|done]. destruct (decide _) as [Hi|Hi]; [|done].
        rewrite <- E. eapply Hin; [left|done|done].
    + apply spec_fold_agree; [done|]. destruct (HW x y E) as (a & b & w & Ho & Hla & Hlb & Hi). exists (OpSet (interleave a b) w), a, b, w.
      split; [done|]. split; [by apply write_of_interleave|]. destruct Hi as [[-> ->]|[-> ->]]; [by left|by right].
  - intros k x. rewrite has_elem_sl, (hist_sl _ _ _ _ _ _ Hh). split.
    + intros (o & Ho & Hm). destruct (Hos _ Ho) as (a & b & w & -> & Hla & Hlb & _). destruct Hm as (a' & b' & w' & Hw & Hx).
      apply writes_spec in Hw. rewrite write_of_interleave in Hw by done. injection Hw as <- <- <-. exists a, b, w. done.
    + intros (a & b & w & Ho & Hla & Hlb & Hx). exists (OpSet (interleave a b) w). split; [done|]. exists a, b, w. split; [|done].
      apply writes_spec. by apply write_of_interleave.
Qed.

(** ** ba_total_degree *)
Lemma foldl_sadd (xs ls : list name) : NoDup ls -> NoDup (foldl (fun s x => sadd x s) ls xs) /\
  (forall x, x ∈ foldl (fun s x => sadd x s) ls xs <-> x ∈ ls \/ x ∈ xs) /\
  length ls <= length (foldl (fun s x => sadd x s) ls xs) <= length ls + length xs /\
  (NoDup xs -> (forall x, x ∈ xs -> x ∉ ls) -> length (foldl (fun s x => sadd x s) ls xs) = length ls + length xs).
Proof.
  revert ls. induction xs as [|y xs IH]; intros ls Hnd; cbn [foldl].
  - split; [done|]. split; [|simpl; lia]. intros x. split; [by left|]. intros [?|?%elem_of_nil]; done.
  - assert (NoDup (sadd y ls) /\ (forall x, x ∈ sadd y ls <-> x = y \/ x ∈ ls) /\ length ls <= length (sadd y ls) <= S (length ls) /\
      (y ∉ ls -> length (sadd y ls) = S (length ls))) as (H1 & H2 & H3 & H4).
    { split; [by apply NoDup_sadd|]. split; [intros x; by rewrite elem_of_sadd|]. unfold sadd. destruct (decide _); [split; [lia|done]|]. rewrite app_length; simpl. lia. }
    destruct (IH _ H1) as (I1 & I2 & I3 & I4). split; [done|]. split; [|split].
    + intros x. rewrite I2, H2, elem_of_cons. tauto.
    + simpl. lia.
    + intros [Hy Hxs]%NoDup_cons Hd. rewrite I4; [|done|].
      * rewrite H4; [simpl; lia|]. apply Hd. left.
      * intros x Hx [->|Hl]%H2; [done|]. apply (Hd x); [by right|done].
Qed.
Lemma omap_len {A B} (f : A -> option B) l : length (omap f l) <= length l.
Proof.
  induction l as [|x l IH]; [done|]. change (omap f (x :: l)) with (match f x with Some y => y :: omap f l | None => omap f l end).
  destruct (f x); cbn [length]; lia.
Qed.
Lemma ba_fill_spec links m rnd : forall ls, NoDup ls -> length ls <= m -> (forall x, x ∈ ls -> x ∈ links) ->
  match ba_fill links m ls rnd with
  | Ok (ls', rnd') => NoDup ls' /\ length ls' = m /\ forall x, x ∈ ls' -> x ∈ links
  | Err e => e = OutOfFuel \/ length links < m
  end.
Proof.
  induction rnd as [|k rnd IH]; intros ls Hnd Hlen Hin; cbn [ba_fill]; (destruct (decide (length ls < m)); [|split; [done|]; split; [lia|done]]);
    (destruct (decide (m - length ls <= length links)); [|right; lia]).
  - by left.
  - destruct (decide _) as [(Hk & _)|]; [|by left]. destruct (foldl_sadd (omap (fun i => links !! i) k) ls Hnd) as (H1 & H2 & H3 & _).
    pose proof (omap_len (fun i => links !! i) k). apply IH; [done|lia|].
    intros x [Hx|Hx]%H2; [by apply Hin|]. apply elem_of_list_omap in Hx as (i & _ & Hi). by eapply elem_of_list_lookup_2.
Qed.
(** A layer of node [i] of the right kind. *)
Definition good_set (i m : nat) (s : list name) : Prop :=
  NoDup s /\ length s = (if decide (m <= i) then m else 0) /\ forall x, x ∈ s -> x ∈ range i.
Definition lay_ops (i t : nat) (s : list name) : list mop := (fun j => MSet [NInt (Z.of_nat i); j; NInt (Z.of_nat t)] 1) <$> s.
Fixpoint lops (i t : nat) (sets : list (list name)) : list mop :=
  match sets with [] => [] | s :: r => lay_ops i t s ++ lops i (S t) r end.
Fixpoint nops (i : nat) (nbs : list (list (list name))) : list mop :=
  match nbs with [] => [] | sets :: r => MAddNode (NInt (Z.of_nat i)) None :: lops i 0 sets ++ nops (S i) r end.
Lemma elem_of_range' n x : x ∈ range n <-> exists i, i < n /\ x = NInt (Z.of_nat i).
Proof.
  unfold range. rewrite elem_of_list_fmap. split; intros (i & H1 & H2); exists i; [apply elem_of_seq in H2; split; [lia|done]|]. split; [done|]. apply elem_of_seq. lia.
Qed.
Lemma ba_layers_spec c i links ms : (forall x, x ∈ links -> x ∈ range i) ->
  forall t p sets0 rnd h, mhist [c] false 0 true h p ->
  match rfold (ba_layer i links) (p, sets0, rnd) (zip (seq t (length ms)) ms) with
  | Ok (p', sets', rnd') => exists sets, sets' = sets0 ++ sets /\ Forall2 (good_set i) ms sets /\ mhist [c] false 0 true (h ++ (okc <$> lops i t sets)) p'
  | Err e => e = OutOfFuel \/ exists m, m ∈ ms /\ length links < m /\ m < i
  end.
Proof.
  intros Hlinks. induction ms as [|m ms IH]; intros t p sets0 rnd h H; cbn [length seq zip zip_with rfold].
  - exists []. split; [by rewrite app_nil_r|]. split; [done|]. simpl. by rewrite app_nil_r.
  - assert (Hset : match (if decide (i = m) then Ok (range i, rnd) else if decide (m < i) then ba_fill links m [] rnd else Ok ([], rnd)) with
      | Ok (ls, rnd') => good_set i m ls | Err e => e = OutOfFuel \/ (length links < m /\ m < i) end).
    { destruct (decide (i = m)) as [->|].
      - split; [apply NoDup_fmap_2; [intros ?? [= ?]; lia|apply NoDup_seq]|]. rewrite decide_True by lia. split; [|done]. unfold range. by rewrite fmap_length, seq_length.
      - destruct (decide (m < i)).
        + pose proof (ba_fill_spec links m rnd [] (NoDup_nil_2) ltac:(simpl; lia) ltac:(by intros ? ?%elem_of_nil)) as Hf.
          destruct (ba_fill links m [] rnd) as [[ls rnd']|e]; [|naive_solver]. destruct Hf as (H1 & H2 & H3). split; [done|].
          rewrite decide_True by lia. split; [done|]. auto.
        + split; [constructor|]. rewrite decide_False by lia. split; [done|]. by intros ? ?%elem_of_nil. }
    unfold ba_layer at 1. destruct (if decide (i = m) then _ else _) as [[ls rnd']|e]; cbn [rbind].
    2:{ destruct Hset as [->|?]; [by left|right]. exists m. split; [left|done]. }
    fold (lay_ops i t ls). destruct (mbuild_safe c false 0 true (lay_ops i t ls) h p H) as (p1 & -> & H1).
    { apply Forall_fmap, Forall_forall. intros x Hx. simpl. apply Hset in Hx. apply elem_of_range' in Hx as (j & ? & ->). intros [= ?]. lia. }
    cbn [rbind]. specialize (IH (S t) p1 (sets0 ++ [ls]) rnd' _ H1).
    destruct (rfold _ _ _) as [[[p' sets'] rnd'']|e].
    + destruct IH as (sets & -> & Hf & Hh). exists (ls :: sets). split; [by rewrite <- app_assoc|]. split; [by constructor|].
      simpl. by rewrite fmap_app, app_assoc.
    + destruct IH as [->|(m' & ? & ?)]; [by left|right]. exists m'. split; [by right|done].
Qed.
Definition ba_links (i : nat) (links : list name) (sets : list (list name)) : list name :=
  foldl (fun ks s => ks ++ s ++ replicate (length s) (NInt (Z.of_nat i))) links sets.
Lemma elem_of_ba_links i links sets x : x ∈ ba_links i links sets <-> x ∈ links \/ exists s, s ∈ sets /\ (x ∈ s \/ x = NInt (Z.of_nat i) /\ s <> []).
Proof.
  unfold ba_links. revert links. induction sets as [|s sets IH]; intros links; cbn [foldl].
  - split; [by left|]. intros [?|(s & ?%elem_of_nil & _)]; done.
  - rewrite IH, !elem_of_app, elem_of_replicate. split.
    + intros [[?|[?|[-> ?]]]|(s' & ? & ?)]; [by left|right; exists s; split; [left|by left]|right; exists s; split; [left|right; split; [done|by intros ->]]|].
      right. exists s'. split; [by right|done].
    + intros [?|(s' & [->|?]%elem_of_cons & Hx)]; [auto| |right; by exists s']. left. right. destruct Hx as [?|[-> Hs]]; [by left|right]. split; [done|]. by destruct s.
Qed.
Lemma ba_links_len i links sets : length links <= length (ba_links i links sets).
Proof. unfold ba_links. revert links. induction sets as [|s sets IH]; intros links; cbn [foldl]; [done|]. specialize (IH (links ++ s ++ replicate (length s) (NInt (Z.of_nat i)))). rewrite app_length in IH. lia. Qed.
Lemma ba_links_set i links sets s : s ∈ sets -> length s <= length (ba_links i links sets).
Proof.
  unfold ba_links. revert links. induction sets as [|s' sets IH]; intros links Hs; [by apply elem_of_nil in Hs|]. apply elem_of_cons in Hs as [->|Hs]; cbn [foldl]; [|by apply IH].
  pose proof (ba_links_len i (links ++ s' ++ replicate (length s') (NInt (Z.of_nat i))) sets) as H. unfold ba_links in H. rewrite !app_length in H. lia.
Qed.
(** The neighbours of [x] with their layers that node [i] contributes. *)
Fixpoint sp (t : nat) (sets : list (list name)) : list (name * nat) :=
  match sets with [] => [] | s :: r => ((fun y => (y, t)) <$> s) ++ sp (S t) r end.
Definition contrib (i : nat) (x : name) (q : name * nat) : list (name * nat) :=
  if decide (x = NInt (Z.of_nat i)) then [q] else if decide (q.1 = x) then [(NInt (Z.of_nat i), q.2)] else [].
Fixpoint nbl (i : nat) (nbs : list (list (list name))) (x : name) : list (name * nat) :=
  match nbs with [] => [] | sets :: r => (sp 0 sets ≫= contrib i x) ++ nbl (S i) r x end.
Lemma ba_links_count i links sets t x : (forall s, s ∈ sets -> NInt (Z.of_nat i) ∉ s) ->
  length (filter (fun y => y = x) (ba_links i links sets)) = length (filter (fun y => y = x) links) + length (sp t sets ≫= contrib i x).
Proof.
  unfold ba_links. revert links t. induction sets as [|s sets IH]; intros links t Hs; cbn [foldl sp]; [simpl; lia|].
  rewrite (IH _ (S t)) by (intros; apply Hs; by right). rewrite !filter_app, !app_length, bind_app, app_length.
  assert (Hsi : NInt (Z.of_nat i) ∉ s) by (apply Hs; left).
  enough (length (filter (fun y => y = x) s) + length (filter (fun y => y = x) (replicate (length s) (NInt (Z.of_nat i)))) =
    length (((fun y => (y, t)) <$> s) ≫= contrib i x)) by lia. clear -Hsi.
  induction s as [|y s IH]; [done|]. apply not_elem_of_cons in Hsi as [Hy Hsi]. specialize (IH Hsi). cbn [length replicate]. rewrite fmap_cons, bind_cons, app_length, <- IH.
  rewrite !filter_cons. unfold contrib. cbn [fst snd]. destruct (decide (y = x)) as [->|], (decide (NInt (Z.of_nat i) = x)) as [E|E]; try (rewrite E in *).
  - done.
  - rewrite decide_False by done. simpl. lia.
  - rewrite decide_True by done. simpl. lia.
  - rewrite decide_False by done. simpl. lia.
Qed.
Lemma elem_of_sp t sets q : q ∈ sp t sets <-> exists k s, sets !! k = Some s /\ q.1 ∈ s /\ q.2 = t + k.
Proof.
  revert t. induction sets as [|s sets IH]; intros t; cbn [sp].
  - split; [by intros ?%elem_of_nil|]. by intros (k & s & ? & _).
  - rewrite elem_of_app, IH, elem_of_list_fmap. split.
    + intros [(y & -> & Hy)|(k & s' & Hk & Hy & E)]; [exists 0, s|exists (S k), s']; (split; [done|]; split; [done|]); simpl; lia.
    + intros ([|k] & s' & Hk & Hy & E).
      * injection Hk as ->. left. exists (q.1). split; [|done]. destruct q as [y u]. simpl in *. f_equal. lia.
      * right. exists k, s'. split; [done|]. split; [done|]. lia.
Qed.
Lemma NoDup_sp t sets : (forall s, s ∈ sets -> NoDup s) -> NoDup (sp t sets).
Proof.
  revert t. induction sets as [|s sets IH]; intros t H; cbn [sp]; [constructor|]. apply NoDup_app. split; [|split].
  - apply NoDup_fmap_2; [by intros ?? [= ?]|]. apply H. left.
  - intros q (y & -> & Hy)%elem_of_list_fmap (k & s' & _ & _ & E)%elem_of_sp. simpl in E. lia.
  - apply IH. intros s' Hs. apply H. by right.
Qed.
Lemma elem_of_nbl i nbs x q : q ∈ nbl i nbs x <-> exists k sets y, nbs !! k = Some sets /\ (y, q.2) ∈ sp 0 sets /\
  (x = NInt (Z.of_nat (i + k)) /\ q.1 = y \/ x <> NInt (Z.of_nat (i + k)) /\ y = x /\ q.1 = NInt (Z.of_nat (i + k))).
Proof.
  revert i. induction nbs as [|sets nbs IH]; intros i; cbn [nbl].
  - split; [by intros ?%elem_of_nil|]. by intros (k & s & y & ? & _).
  - rewrite elem_of_app, IH, elem_of_list_bind. split.
    + intros [([y u] & Hq & Hy)|(k & s & y & Hk & H)].
      * exists 0, sets, y. split; [done|]. rewrite Nat.add_0_r. unfold contrib in Hq. cbn [fst snd] in Hq.
        destruct (decide (x = _)); [apply elem_of_list_singleton in Hq as ->; simpl; auto|]. destruct (decide (y = x)); [|by apply elem_of_nil in Hq].
        apply elem_of_list_singleton in Hq as ->. simpl. auto.
      * exists (S k), s, y. split; [done|]. by replace (i + S k) with (S i + k) by lia.
    + intros ([|k] & s & y & Hk & Hy & H).
      * injection Hk as ->. left. exists (y, q.2). split; [|done]. rewrite Nat.add_0_r in H. unfold contrib. cbn [fst snd].
        destruct H as [[-> H]|(H1 & -> & H)].
        -- rewrite decide_True by done. destruct q; simpl in *; subst. by left.
        -- rewrite decide_False by done. rewrite decide_True by done. destruct q; simpl in *; subst. by left.
      * right. exists k, s, y. split; [done|]. split; [done|]. by replace (S i + k) with (i + S k) by lia.
Qed.
Lemma NoDup_contrib i x l : NoDup l -> NoDup (l ≫= contrib i x).
Proof.
  intros H. unfold contrib. destruct (decide (x = NInt (Z.of_nat i))).
  - replace (l ≫= (fun q => [q])) with l; [done|]. clear. induction l as [|q l IH]; [done|]. rewrite bind_cons. simpl. by rewrite <- IH.
  - apply NoDup_bind; [done|intros q _; destruct (decide _); repeat constructor; by intros ?%elem_of_nil|].
    intros [y u] [y' u'] q _ _ Hq Hq'. cbn [fst snd] in *. destruct (decide (y = x)); [|by apply elem_of_nil in Hq]. destruct (decide (y' = x)); [|by apply elem_of_nil in Hq'].
    apply elem_of_list_singleton in Hq, Hq'. congruence.
Qed.
Lemma NoDup_nbl i nbs x : (forall k sets s, nbs !! k = Some sets -> s ∈ sets -> NoDup s /\ forall y, y ∈ s -> y ∈ range (i + k)) -> NoDup (nbl i nbs x).
Proof.
  revert i. induction nbs as [|sets nbs IH]; intros i H; cbn [nbl]; [constructor|]. apply NoDup_app. split; [|split].
  - apply NoDup_contrib, NoDup_sp. intros s Hs. by apply (H 0 sets s).
  - intros q Hq (k & s & y & Hk & Hy & H')%elem_of_nbl. apply elem_of_list_bind in Hq as ([z u] & Hq & Hz). unfold contrib in Hq. cbn [fst snd] in Hq.
    destruct (decide (x = _)) as [->|].
    + apply elem_of_list_singleton in Hq as ->. destruct H' as [[E _]|(_ & -> & E)]; [injection E; lia|]. cbn [fst] in E. subst z.
      apply elem_of_sp in Hz as (k' & s' & Hs' & Hz & _). apply elem_of_list_lookup_2 in Hs'. apply (H 0 sets s' eq_refl Hs') in Hz.
      unfold range in Hz. apply elem_of_list_fmap in Hz as (j & [= E] & Hj%elem_of_seq). lia.
    + destruct (decide (z = x)) as [->|]; [|by apply elem_of_nil in Hq]. apply elem_of_list_singleton in Hq as ->. cbn [fst snd] in *.
      destruct H' as [[-> <-]|(_ & _ & E)]; [|injection E; lia].
      apply elem_of_sp in Hz as (k' & s' & Hs' & Hz & _). apply elem_of_list_lookup_2 in Hs'. apply (H 0 sets s' eq_refl Hs') in Hz.
      unfold range in Hz. apply elem_of_list_fmap in Hz as (j & [= E] & Hj%elem_of_seq). lia.
  - apply IH. intros k s' s Hk Hs. destruct (H (S k) s' s Hk Hs) as [H1 H2]. split; [done|]. by replace (S i + k) with (i + S k) by lia.
Qed.
Lemma nbl_app i nbs sets x : nbl i (nbs ++ [sets]) x = nbl i nbs x ++ (sp 0 sets ≫= contrib (i + length nbs) x).
Proof.
  revert i. induction nbs as [|s nbs IH]; intros i; [cbn [app nbl length]; by rewrite Nat.add_0_r, app_nil_r|].
  change ((s :: nbs) ++ [sets]) with (s :: (nbs ++ [sets])). cbn [nbl length]. rewrite IH. replace (i + S (length nbs)) with (S i + length nbs) by lia. by rewrite <- app_assoc.
Qed.
(** After [i] nodes. *)
Definition ba_inv (c : coupling) (ms : list nat) (i : nat) (p : mpx) (links : list name) (nbs : list (list (list name))) : Prop :=
  mhist [c] false 0 true (okc <$> nops 0 nbs) p /\ length nbs = i /\
  (forall j sets, nbs !! j = Some sets -> Forall2 (good_set j) ms sets) /\
  (forall x, x ∈ links -> x ∈ range i) /\ (forall m, m ∈ ms -> m < i -> forall x, x ∈ range m -> x ∈ links) /\
  (forall m, m ∈ ms -> m < i -> m <= length links) /\
  (forall x, length (filter (fun y => y = x) links) = length (nbl 0 nbs x)).
Lemma nops_app i nbs sets : nops i (nbs ++ [sets]) = nops i nbs ++ nops (i + length nbs) [sets].
Proof.
  revert i. induction nbs as [|s nbs IH]; intros i; [cbn [app nops length]; by rewrite Nat.add_0_r|].
  change ((s :: nbs) ++ [sets]) with (s :: (nbs ++ [sets])). cbn [nops length]. rewrite IH. replace (i + S (length nbs)) with (S i + length nbs) by lia. simpl. by rewrite <- app_assoc.
Qed.
Lemma range_sub m n x : m <= n -> x ∈ range m -> x ∈ range n.
Proof. rewrite !elem_of_range'. intros H (i & ? & ->). exists i. split; [lia|done]. Qed.
Lemma ba_node_spec c ms i p links nbs rnd : ba_inv c ms i p links nbs ->
  match ba_node ms (p, links, rnd) i with
  | Ok (p', links', _) => exists sets, ba_inv c ms (S i) p' links' (nbs ++ [sets]) /\ links' = ba_links i links sets
  | Err e => e = OutOfFuel
  end.
Proof.
  intros (H & Hlen & Hgood & Hsub & Hsup & Hcap & Hcount). unfold ba_node. destruct (do_mop_safe _ _ _ _ _ _ (MAddNode (NInt (Z.of_nat i)) None) H I) as (p1 & -> & H1). cbn [rbind].
  pose proof (ba_layers_spec c i links ms Hsub 0 p1 [] rnd _ H1) as Hl. destruct (rfold _ _ _) as [[[p2 sets'] rnd']|e]; cbn [rbind].
  2:{ destruct Hl as [->|(m & Hm & Hc & Hi)]; [done|]. specialize (Hcap m Hm Hi). lia. }
  destruct Hl as (sets & -> & Hf & Hh). simpl app in *. exists sets. split; [|done]. fold (ba_links i links sets).
  assert (Hgs : forall s, s ∈ sets -> forall x, x ∈ s -> x ∈ range i).
  { intros s [t Ht]%elem_of_list_lookup. destruct (Forall2_lookup_r _ _ _ _ _ Hf Ht) as (m & _ & Hg). apply Hg. }
  assert (Hfull : i ∈ ms -> exists s, s ∈ sets /\ length s = i /\ forall x, x ∈ range i -> x ∈ s).
  { intros [t Ht]%elem_of_list_lookup. destruct (Forall2_lookup_l _ _ _ _ _ Hf Ht) as (s & Hs & Hnd & Hls & Hin). rewrite decide_True in Hls by done.
    exists s. split; [by eapply elem_of_list_lookup_2|]. split; [done|]. intros x Hx.
    assert (s ≡ₚ range i) as Hp; [|by rewrite Hp]. apply submseteq_Permutation_length_le; [unfold range; rewrite fmap_length, seq_length; lia|by apply NoDup_submseteq]. }
  split_and!.
  - rewrite nops_app, fmap_app, Hlen. cbn [nops]. rewrite app_nil_r. simpl plus. by rewrite <- app_assoc in Hh.
  - rewrite app_length. simpl. lia.
  - intros j s Hj. apply lookup_app_Some in Hj as [Hj|[Hj1 Hj2]]; [by apply Hgood|]. apply list_lookup_singleton_Some in Hj2 as [Hj2 <-].
    by replace j with i by lia.
  - intros x [Hx|(s & Hs & [Hx|[-> Hne]])]%elem_of_ba_links; [apply (range_sub i); [lia|by apply Hsub]|apply (range_sub i); [lia|by eapply Hgs]|].
    apply elem_of_range'. exists i. split; [lia|done].
  - intros m Hm Hi x Hx. apply elem_of_ba_links. destruct (decide (m = i)) as [->|]; [|left; apply (Hsup m); [done|lia|done]].
    destruct (Hfull Hm) as (s & Hs & _ & Hin). right. exists s. auto.
  - intros m Hm Hi. destruct (decide (m = i)) as [->|].
    + destruct (Hfull Hm) as (s & Hs & <- & _). by apply ba_links_set.
    + pose proof (ba_links_len i links sets). specialize (Hcap m Hm ltac:(lia)). lia.
  - intros x. rewrite nbl_app, app_length, Hlen, <- Hcount. apply ba_links_count. intros s Hs Hi%(Hgs s Hs).
    apply elem_of_range' in Hi as (j & ? & [= ?]). lia.
Qed.
Lemma ba_nodes_spec c ms k : forall i p links nbs rnd, ba_inv c ms i p links nbs ->
  match rfold (ba_node ms) (p, links, rnd) (seq i k) with
  | Ok (p', links', _) => exists nbs', ba_inv c ms (i + k) p' links' nbs'
  | Err e => e = OutOfFuel
  end.
Proof.
  induction k as [|k IH]; intros i p links nbs rnd H; cbn [seq rfold]; [exists nbs; by rewrite Nat.add_0_r|].
  pose proof (ba_node_spec _ _ _ _ _ _ rnd H) as Hn. destruct (ba_node ms (p, links, rnd) i) as [[[p' links'] rnd']|e]; [|done].
  destruct Hn as (sets & Hi & _). specialize (IH _ _ _ _ rnd' Hi). destruct (rfold _ _ _) as [[[p2 l2] r2]|e]; [|done]. by replace (i + S k) with (S i + k) by lia.
Qed.
Lemma elem_of_lops i t sets o : o ∈ lops i t sets <-> exists k s x, sets !! k = Some s /\ x ∈ s /\ o = MSet [NInt (Z.of_nat i); x; NInt (Z.of_nat (t + k))] 1.
Proof.
  revert t. induction sets as [|s sets IH]; intros t; cbn [lops].
  - split; [by intros ?%elem_of_nil|]. by intros (k & s & x & ? & _).
  - rewrite elem_of_app, IH. unfold lay_ops. rewrite elem_of_list_fmap. split.
    + intros [(x & -> & Hx)|(k & s' & x & ? & ? & ->)]; [exists 0, s, x; by rewrite Nat.add_0_r|]. exists (S k), s', x. split; [done|]. split; [done|]. by replace (t + S k) with (S t + k) by lia.
    + intros ([|k] & s' & x & Hs & Hx & ->); [injection Hs as ->; left; exists x; by rewrite Nat.add_0_r|]. right. exists k, s', x. split; [done|]. split; [done|]. by replace (t + S k) with (S t + k) by lia.
Qed.
Lemma elem_of_nops i nbs o : o ∈ nops i nbs <-> exists k sets, nbs !! k = Some sets /\
  (o = MAddNode (NInt (Z.of_nat (i + k))) None \/ exists t s x, sets !! t = Some s /\ x ∈ s /\ o = MSet [NInt (Z.of_nat (i + k)); x; NInt (Z.of_nat t)] 1).
Proof.
  revert i. induction nbs as [|sets nbs IH]; intros i; cbn [nops].
  - split; [by intros ?%elem_of_nil|]. by intros (k & s & ? & _).
  - rewrite elem_of_cons, elem_of_app, IH, elem_of_lops. split.
    + intros [->|[H|(k & s & Hk & H)]]; [exists 0, sets|exists 0, sets|exists (S k), s].
      * split; [done|]. left. by rewrite Nat.add_0_r.
      * split; [done|]. right. by rewrite Nat.add_0_r.
      * split; [done|]. by replace (i + S k) with (S i + k) by lia.
    + intros ([|k] & s & Hk & H); [injection Hk as ->; rewrite Nat.add_0_r in H; destruct H; auto|]. right. right. exists k, s. split; [done|]. by replace (S i + k) with (i + S k) by lia.
Qed.
