(** * Property C36: the configuration model *)
From Verif Require Import ConfFacts MpxHist MpxIter PropsNet PropsTrans TransFacts.

(** ** Specification *)
(** [n] is a simple undirected network with no aspects whose nodes are the keys of
    [degs], and every node has exactly as many neighbours as prescribed. *)
Definition realises (degs : list (name * nat)) (n : mlnet) : Prop :=
  reachable n /\ aspects n = 0 /\ directed n = false /\
  (forall x, has_elem n 0 x <-> x ∈ degs.*1) /\
  (forall x, ~ linked n [x] [x]) /\
  (forall x y, linked n [x] [y] -> reads n [x] [y] 1) /\
  (forall x k, (x, k) ∈ degs -> exists L, lists_exactly L (fun y => linked n [x] [y]) /\ length L = k).
(** Why [single_layer_conf] can fail: an odd number of stubs, or more than
    n(n-1); nodes that cannot be compared (sorted raises TypeError); a self-link
    when there is no other link to rewire (random.sample raises ValueError); or the
    random outcomes given were used up while still rewiring. *)
Definition conf_failure (degs : list (name * nat)) (e : exn) : Prop :=
  e = AssertionError /\ ~ (Nat.even (sum_list (degs.*2)) = true /\ sum_list (degs.*2) <= length degs * (length degs - 1)) \/
  e = TypeError /\ (exists x y, x ∈ degs.*1 /\ y ∈ degs.*1 /\ is_int x <> is_int y) \/
  e = ValueError /\ sum_list (degs.*2) < 4 \/
  e = OutOfFuel.

(** ** Proofs *)
Lemma isolated_net (xs : list name) : exists n, build (new_net 0 0 false true) ((fun x => OpAddNode x None) <$> xs) = Ok n /\
  (exists h, hist 0 0 false true h n) /\ (forall x, has_elem n 0 x <-> x ∈ xs) /\ forall x y, rd n [x] [y] = 0%Z.
Proof.
  destruct (gcalls_net (GAdd <$> xs) true) as (n & Hb & Hs). rewrite <- list_fmap_compose in Hb. exists n. split; [done|].
  split; [exists ([] ++ ((fun x => OpAddNode x None) <$> xs)); by apply (build_hist 0 0 false true _ [] (new_net 0 0 false true) n (hist_init 0 0 false true))|]. destruct Hs as (Hr & _ & _ & Hn & He & Hl & _). split.
  - intros x. rewrite He. unfold gnode. split.
    + intros (g & (y & -> & Hy)%elem_of_list_fmap & ->). done.
    + intros Hx. exists (GAdd x). split; [by apply elem_of_list_fmap_1|done].
  - intros x y. destruct (decide (rd n [x] [y] = 0%Z)) as [|Hne]; [done|]. exfalso. rewrite <- Hn in Hne. apply linked_rd in Hne; [|by apply reachable_good].
    apply Hl in Hne as [H|H]; apply elem_of_list_fmap in H as (? & ? & _); done.
Qed.

Definition zeros (degs : list (name * nat)) : list name := (filter (fun xk => xk.2 = 0) degs).*1.
Lemma zeros_ops degs : (degs ≫= fun xk => if decide (xk.2 = 0) then [OpAddNode (xk.1) None] else []) = (fun x => OpAddNode x None) <$> zeros degs.
Proof.
  unfold zeros. induction degs as [|[x k] degs IH]; [done|]. rewrite bind_cons, IH, filter_cons. cbn [fst snd]. by destruct (decide (k = 0)).
Qed.
Lemma elem_of_zeros degs x : x ∈ zeros degs <-> (x, 0) ∈ degs.
Proof.
  unfold zeros. rewrite elem_of_list_fmap. split.
  - intros ([y k] & -> & [Hk Hin]%elem_of_list_filter). cbn [fst snd] in *. by subst k.
  - intros H. exists (x, 0). split; [done|]. by apply elem_of_list_filter.
Qed.
Definition keyP (degs : list (name * nat)) (x : name) : Prop := x ∈ degs.*1.
Definition zeroP (degs : list (name * nat)) (x : name) : Prop := (x, 0) ∈ degs.
Definition L_of (degs : list (name * nat)) : nat := sum_list (degs.*2) / 2.
Notation dinv degs := (Inv (keyP degs) (zeroP degs) (fun x => occ x (stubs_of degs)) (L_of degs)).

(** After the first pass over the shuffled stubs. *)
Lemma conf_start degs sh : Nat.even (sum_list (degs.*2)) = true -> sh ≡ₚ stubs_of degs ->
  exists n, build (new_net 0 0 false true) (degs ≫= fun xk => if decide (xk.2 = 0) then [OpAddNode (xk.1) None] else []) = Ok n /\
  match rfold conf_edge (CSt n (pair_up sh) [] [] []) (zip (seq 0 (length (pair_up sh))) (pair_up sh)) with
  | Ok st => First (keyP degs) (zeroP degs) (pair_up sh) st /\ c_slots st = pair_up sh /\
     dinv degs (c_multi st) (c_self st ≫= fun kv => (fun si => (kv.1, si)) <$> kv.2) st /\ big (c_multi st) st
  | Err e => terr (keyP degs) e
  end.
Proof.
  intros Hev Hsh. rewrite zeros_ops. destruct (isolated_net (zeros degs)) as (n & -> & Hh & He & Hrd). exists n. split; [done|].
  assert (forall q, q ∈ pair_up sh -> keyP degs (q.1) /\ keyP degs (q.2)) as HK.
  { assert (forall x, x ∈ sh -> keyP degs x) as Hk.
    { intros x. rewrite Hsh, elem_of_stubs. intros (k & Hk & _). apply elem_of_list_fmap. by exists (x, k). }
    intros q Hq. apply elem_of_pair_up in Hq as [? ?]. auto. }
  assert (First (keyP degs) (zeroP degs) [] (CSt n (pair_up sh) [] [] [])) as HF.
  { split; cbn [c_net c_multi c_idx c_self]; try done.
    - split; [done|]. split.
      + intros x Hx%He%elem_of_zeros. apply elem_of_list_fmap. by exists (x, 0).
      + intros x Hx. by apply He, elem_of_zeros.
    - intros a b Hne. unfold RR. by rewrite Hrd.
    - intros a. apply Hrd.
    - intros a b Hne Hc. simpl in Hc. lia.
    - constructor.
    - intros p Hp. by apply elem_of_nil in Hp.
    - intros p _. split; [constructor|]. intros s. simpl. rewrite elem_of_nil. split; [done|]. by intros (q & ? & _).
    - constructor.
    - intros x. split; [constructor|]. intros s. simpl. rewrite elem_of_nil. split; [done|]. by intros (q & ? & _). }
  pose proof (first_pass (keyP degs) (zeroP degs) (pair_up sh) [] _ HF HK) as H. cbn [length] in H.
  assert (length sh = sum_list (degs.*2)) as Hl. { rewrite Hsh. apply length_stubs. }
  destruct (rfold conf_edge _ _) as [st|e]; [|done]. destruct H as [H Es].
  split; [done|]. split; [done|]. apply (first_inv (keyP degs) (zeroP degs) _ _ (pair_up sh)); [done|done| | |done].
  - rewrite length_pair_up, Hl. done.
  - intros x. rewrite tot_pair_up; [|by rewrite Hl]. by rewrite Hsh.
Qed.
Lemma cerr_failure degs e : cerr (keyP degs) (L_of degs) e -> conf_failure degs e.
Proof.
  intros [->|[[-> (a & b & Ha & Hb & Hne)]|[-> HL]]]; unfold conf_failure; [by do 3 right| |].
  - right. left. split; [done|]. eauto.
  - right. right. left. split; [done|]. unfold L_of in HL.
    destruct (decide (sum_list degs.*2 < 4)) as [|Hge]; [done|]. exfalso. pose proof (Nat.div_le_mono 4 (sum_list degs.*2) 2 ltac:(lia) ltac:(lia)). simpl in *. lia.
Qed.
Lemma conf_run degs sh order rnd :
  match single_layer_conf degs sh order rnd with
  | Ok n => exists st, c_net st = n /\ dinv degs [] [] st
  | Err e => conf_failure degs e
  end.
Proof.
  unfold single_layer_conf. destruct (decide (Nat.even (sum_list (degs.*2)) = true /\ sum_list (degs.*2) <= length degs * (length degs - 1))) as [[Hev Hle]|Hno].
  2: { rewrite zeros_ops. destruct (isolated_net (zeros degs)) as (n & -> & _). cbn [rbind]. by left. }
  destruct (decide (sh ≡ₚ degs ≫= _)) as [Hsh|Hsh].
  2: { rewrite zeros_ops. destruct (isolated_net (zeros degs)) as (n & -> & _). cbn [rbind]. by do 3 right. }
  destruct (conf_start degs sh Hev Hsh) as (n & -> & H). cbn [rbind].
  destruct (rfold conf_edge _ _) as [st|e]; cbn [rbind]; [|apply cerr_failure; right; by left].
  destruct H as (_ & _ & HI & Hb). unfold self_phase. pose proof (self_phase_spec _ _ _ _ _ _ st rnd HI Hb) as Hs.
  destruct (rfold _ (st, rnd) _) as [[st' rnd']|e]; cbn [rbind]; [|by apply cerr_failure]. destruct Hs as (HI' & Em & Ei).
  destruct (decide (order ≡ₚ c_multi st)) as [Ho|]; [|by do 3 right].
  assert (big (c_multi st) st') as Hb'. { intros p Hp. rewrite Ei. by apply Hb. }
  assert (dinv degs order [] st') as HI2. { eapply Inv_perm; [|done|exact HI']. by symmetry. }
  assert (big order st') as Hb2. { intros p Hp. apply Hb'. by rewrite <- Ho. }
  pose proof (multi_phase_spec _ _ _ _ order st' rnd' HI2 Hb2) as Hm.
  destruct (rfold multi_edge _ _) as [[st2 r2]|e]; cbn [rbind]; [|by apply cerr_failure]. exists st2. done.
Qed.
Lemma inv_links degs st : dinv degs [] [] st -> (forall q, q ∈ c_slots st -> q.1 <> q.2) /\ (forall x, cnt (x, x) (c_slots st) = 0) /\
  forall x y, linked (c_net st) [x] [y] <-> 1 <= cnt (x, y) (c_slots st).
Proof.
  intros [Hlen [[h Hh] [HK HZ]] Hcons Hz Htwo _ _ _ Hdeg Hkeys _ Hself]. set (n := c_net st) in *. set (sl := c_slots st) in *.
  destruct (hist_inv _ _ _ _ _ _ Hh) as [HS HL Ha Hn Hd Hf]. assert (reachable n) as Hr by by repeat eexists. pose proof (reachable_good _ Hr) as Hg.
  assert (forall q, q ∈ sl -> q.1 <> q.2) as Hns.
  { intros [a b] [s Hs]%elem_of_list_lookup. simpl. intros ->. apply Hself in Hs. by apply elem_of_nil in Hs. }
  assert (forall x, cnt (x, x) sl = 0) as Hxx.
  { intros x. destruct (decide (1 <= cnt (x, x) sl)) as [Hc|]; [|lia]. apply cnt_pos in Hc as ([a b] & Hq & Hs). exfalso. apply (Hns _ Hq). apply sameq_iff in Hs as [[? ?]|[? ?]]; simpl; congruence. }
  assert (forall x y, linked n [x] [y] <-> 1 <= cnt (x, y) sl) as Hlk.
  { intros x y. rewrite linked_rd, Hn by done. destruct (decide (x = y)) as [->|Hne].
    - rewrite Hxx. change (rd n [y] [y]) with (RR n y y). rewrite Hz. split; [done|lia].
    - change (rd n [x] [y]) with (RR n x y). rewrite (Hcons x y Hne). destruct (decide (1 <= cnt (x, y) sl)); split; intros; lia. }
  split_and!; done.
Qed.
Lemma inv_realises degs st : NoDup (degs.*1) -> dinv degs [] [] st -> realises degs (c_net st).
Proof.
  intros Hnd HI. pose proof HI as [Hlen [[h Hh] [HK HZ]] Hcons Hz Htwo _ _ _ Hdeg Hkeys _ Hself]. set (n := c_net st) in *. set (sl := c_slots st) in *.
  destruct (hist_inv _ _ _ _ _ _ Hh) as [HS HL Ha Hn Hd Hf]. assert (reachable n) as Hr by by repeat eexists. pose proof (reachable_good _ Hr) as Hg.
  destruct (inv_links degs st HI) as (Hns & Hxx & Hlk). fold n in Hlk. fold sl in Hlk, Hns, Hxx.
  assert (forall x, length (partners x sl) = ConfFacts.tot (ends x) sl /\ NoDup (partners x sl) /\ forall y, y ∈ partners x sl <-> 1 <= cnt (x, y) sl) as Hp.
  { intros x. apply partners_spec; [done|]. intros y. destruct (decide (x = y)) as [->|Hne]; [rewrite Hxx; lia|].
    destruct (decide (2 <= cnt (x, y) sl)) as [H2|]; [|lia]. exfalso. destruct (Htwo x y Hne H2) as (p & Hp & _). by apply elem_of_nil in Hp. }
  split_and!; try done.
  - intros x. split; [apply HK|]. intros Hx. apply elem_of_list_fmap in Hx as ([y k] & -> & Hin). cbn [fst]. destruct (decide (k = 0)) as [->|Hk]; [by apply HZ|].
    destruct (Hp y) as (Hl & _ & Hpy). rewrite Hdeg, (occ_stubs degs y k) in Hl by done.
    destruct (partners y sl) as [|z zs] eqn:E; [simpl in Hl; lia|]. assert (1 <= cnt (y, z) sl) as Hc by (apply Hpy; left). apply Hlk in Hc.
    destruct (C12_links_between_node_layers _ _ _ _ _ _ Hh _ _ Hc) as (_ & _ & Hel). apply (Hel 0 y). by left.
  - intros x Hx%Hlk. rewrite Hxx in Hx. lia.
  - intros x y Hl. apply reads_rd; [by rewrite Ha|by rewrite Ha|]. change (rd n [x] [y]) with (RR n x y). apply Hlk in Hl.
    rewrite Hcons; [by rewrite decide_True|]. intros ->. rewrite Hxx in Hl. lia.
  - intros x k Hin. destruct (Hp x) as (Hl & Hndp & Hpx). exists (partners x sl). rewrite Hl, Hdeg. split; [|by apply occ_stubs].
    split; [done|]. intros y. by rewrite Hpx, Hlk.
Qed.

(** ** Theorems *)
(** degstype "nodes": whatever the shuffle, the edges drawn while rewiring and the
    iteration order, a call that returns gives a simple network on the given nodes
    in which every node has its prescribed number of neighbours. *)
Theorem C36_degrees degs sh order rnd n : NoDup (degs.*1) -> single_layer_conf degs sh order rnd = Ok n -> realises degs n.
Proof. intros Hnd E. pose proof (conf_run degs sh order rnd) as H. rewrite E in H. destruct H as (st & <- & H). by apply inv_realises. Qed.
(** The only ways to fail; in particular the two assertions inside the rewiring
    loop never fail. *)
Theorem C36_failures degs sh order rnd e : single_layer_conf degs sh order rnd = Err e -> conf_failure degs e.
Proof. intros E. pose proof (conf_run degs sh order rnd) as H. by rewrite E in H. Qed.
(** degstype "distribution": the nodes are 0..N-1 and for every pair (k,c) of the
    distribution exactly c of them have k neighbours. *)
Lemma length_filter_zip (xs : list name) : forall (ks : list nat) k, length xs = length ks ->
  length (filter (fun xk => xk.2 = k) (zip xs ks)) = length (filter (fun j => j = k) ks).
Proof.
  induction xs as [|x xs IH]; intros [|j ks] k Hl; try done. cbn [zip zip_with]. fold (zip xs ks). rewrite !filter_cons. cbn [snd].
  simpl in Hl. destruct (decide (j = k)); cbn [length]; rewrite IH; [done|lia|done|lia].
Qed.
Lemma filter_blocks (dist : list (nat * nat)) k c : NoDup (dist.*1) -> (k, c) ∈ dist ->
  length (filter (fun j => j = k) (dist ≫= fun kn => replicate (kn.2) (kn.1))) = c.
Proof.
  assert (forall j n, filter (fun j => j = k) (replicate n j) = if decide (j = k) then replicate n j else []) as Hrep.
  { intros j n. induction n as [|n IH]; simpl; [by destruct (decide _)|]. rewrite filter_cons, IH. by destruct (decide (j = k)). }
  assert (forall d, k ∉ d.*1 -> filter (fun j => j = k) (d ≫= fun kn => replicate (kn.2) (kn.1)) = []) as H0.
  { induction d as [|[j n] d IH]; [done|]. rewrite fmap_cons, not_elem_of_cons. intros [Hj Hn]. rewrite bind_cons, filter_app, Hrep, IH by done. cbn [fst] in *. by rewrite decide_False. }
  induction dist as [|[j n] d IH]; [by intros _ ?%elem_of_nil|]. rewrite fmap_cons, NoDup_cons. intros [Hj Hnd] Hin.
  rewrite bind_cons, filter_app, Hrep, app_length. cbn [fst snd] in *. apply elem_of_cons in Hin as [[= <- <-]|Hin].
  - rewrite decide_True, H0, replicate_length by done. simpl. lia.
  - rewrite decide_False; [by rewrite IH|]. intros ->. apply Hj. apply elem_of_list_fmap. by exists (k, c).
Qed.
Lemma NoDup_fst_filter (l : list (name * nat)) k : NoDup (l.*1) -> NoDup ((filter (fun xk => xk.2 = k) l).*1).
Proof.
  induction l as [|[x j] l IH]; [done|]. rewrite fmap_cons, NoDup_cons. intros [Hx Hnd]. rewrite filter_cons. cbn [snd]. destruct (decide (j = k)); [|by apply IH].
  rewrite fmap_cons. constructor; [|by apply IH]. intros Hin. apply Hx. apply elem_of_list_fmap in Hin as (y & Ey & Hy). apply elem_of_list_fmap. exists y. split; [done|].
  by apply elem_of_list_filter in Hy as [_ ?].
Qed.
Theorem C36_distribution dist perm sh order rnd n : NoDup (dist.*1) -> single_layer_conf_dist dist perm sh order rnd = Ok n ->
  reachable n /\ aspects n = 0 /\ directed n = false /\
  (forall x, has_elem n 0 x <-> exists i, i < sum_list (dist.*2) /\ x = NInt (Z.of_nat i)) /\
  (forall x, ~ linked n [x] [x]) /\ (forall x y, linked n [x] [y] -> reads n [x] [y] 1) /\
  forall k c, (k, c) ∈ dist -> exists X, length X = c /\
    lists_exactly X (fun x => has_elem n 0 x /\ exists L, lists_exactly L (fun y => linked n [x] [y]) /\ length L = k).
Proof.
  intros Hnd. unfold single_layer_conf_dist. destruct (decide (perm ≡ₚ _)) as [Hp|]; [|done]. intros E.
  set (xs := (fun i => NInt (Z.of_nat i)) <$> perm). set (ks := dist ≫= fun kn => replicate (kn.2) (kn.1)).
  assert (length xs = length ks) as Hlen.
  { unfold xs, ks. rewrite fmap_length, Hp, seq_length. clear. induction dist as [|[k c] d IH]; [done|]. rewrite bind_cons, app_length, replicate_length, <- IH. done. }
  assert ((dist_degs dist perm).*1 = xs) as Hk1 by (apply fst_zip; fold xs ks; lia).
  assert (NoDup xs) as Hndx. { unfold xs. apply NoDup_fmap_2; [by intros ?? [= ?%Nat2Z.inj]|]. rewrite Hp. apply NoDup_seq. }
  destruct (C36_degrees (dist_degs dist perm) sh order rnd n ltac:(by rewrite Hk1) E) as (H1 & H2 & H3 & H4 & H5 & H6 & H7).
  split_and!; try done.
  - intros x. rewrite H4, Hk1. unfold xs. rewrite elem_of_list_fmap. setoid_rewrite Hp. split.
    + intros (i & -> & Hi%elem_of_seq). exists i. split; [lia|done].
    + intros (i & Hi & ->). exists i. split; [done|]. apply elem_of_seq. lia.
  - intros k c Hin. exists ((filter (fun xk => xk.2 = k) (dist_degs dist perm)).*1). split.
    + rewrite fmap_length. unfold dist_degs. fold xs ks. rewrite length_filter_zip by done. by apply filter_blocks.
    + assert (NoDup ((filter (fun xk => xk.2 = k) (dist_degs dist perm)).*1)) as Hndf.
      { apply NoDup_fst_filter. by rewrite Hk1. }
      split; [done|]. intros x. rewrite H4, elem_of_list_fmap. split.
      * intros ([y j] & -> & [Hj Hy]%elem_of_list_filter). cbn [fst snd] in *. subst j. split; [apply elem_of_list_fmap; by exists (y, k)|]. by apply H7.
      * intros [Hx (L & HL & Hl)]. apply elem_of_list_fmap in Hx as ([y j] & -> & Hy). cbn [fst] in *. exists (y, j). split; [done|].
        apply elem_of_list_filter. split; [|done]. destruct (H7 y j Hy) as (L' & HL' & <-). cbn [snd]. rewrite <- Hl.
        apply Permutation_length. destruct HL as [HL1 HL2], HL' as [HL1' HL2']. apply NoDup_same_perm; [done..|]. intros z. by rewrite HL2, HL2'.
Qed.
(** [conf(net)]: a network with the same nodes, in which every node has the degree
    it has in [net]. *)
Theorem C36_same_degrees m sh order rnd n : reachable m -> conf_of m sh order rnd = Ok n ->
  reachable n /\ directed n = false /\ (forall x, has_elem n 0 x <-> has_elem m 0 x) /\ (forall x, ~ linked n [x] [x]) /\
  forall x, has_elem m 0 x -> degree n [x] None = degree m [x] None.
Proof.
  intros (asp & noe & dir & fi & h & H). unfold conf_of. destruct (decide (aspects m = 0)) as [Ha|]; [|done].
  destruct (hist_inv _ _ _ _ _ _ H) as [_ _ Ha' _ Hd _]. destruct (C13_nodes_of_layer _ _ _ _ _ _ H) as (Hnd & Hin & _).
  assert (forall x, 0 <= degree m [x] None)%Z as Hpos.
  { intros x. destruct dir.
    - destruct (C08_directed_degree_drift _ _ _ _ _ H [x]) as (L & R & _ & _ & ->). lia.
    - destruct (C08_total_degree_exact _ _ _ _ _ _ H [x] None I ltac:(by left)) as (L & _ & ->). lia. }
  set (degs := (fun x => (x, Z.to_nat (degree m [x] None))) <$> iter_nodes m None).
  intros E. assert (single_layer_conf degs sh order rnd = Ok n) as E'. { unfold degs. destruct (iter_nodes m None); [done|exact E]. } clear E.
  assert (degs.*1 = iter_nodes m None) as Hk. { unfold degs. rewrite <- list_fmap_compose. apply list_fmap_id. }
  destruct (C36_degrees degs sh order rnd n ltac:(by rewrite Hk) E') as (H1 & H2 & H3 & H4 & H5 & H6 & H7).
  split_and!; try done.
  - intros x. by rewrite H4, Hk, Hin.
  - intros x Hx%Hin. destruct (H7 x (Z.to_nat (degree m [x] None))) as (L & [HL1 HL2] & Hl). { apply elem_of_list_fmap. eauto. }
    destruct H1 as (asp' & noe' & dir' & fi' & h' & H'). destruct (hist_inv _ _ _ _ _ _ H') as [_ _ _ _ Hd' _].
    destruct (C08_total_degree_exact _ _ _ _ _ _ H' [x] None I ltac:(left; congruence)) as (L' & [HL1' HL2'] & ->).
    rewrite <- (Z2Nat.id (degree m [x] None)) by done. f_equal. rewrite <- Hl.
    assert (forall b, linked n b [x] -> linked n [x] b) as Hsym. { intros b Hb. assert (good n) as Hg by by eapply hist_good. rewrite linked_rd in Hb by done. rewrite linked_rd by done. by rewrite rd_sym. }
    rewrite <- (fmap_length (fun y => [y]) L). apply Permutation_length, NoDup_same_perm; [done|by apply NoDup_fmap_2; [intros ?? [=]|]|].
    intros b. rewrite HL2', elem_of_list_fmap. split.
    + intros [[Hb|Hb%Hsym] _]; (assert (length b = 1) as Hlb; [destruct (C12_links_between_node_layers _ _ _ _ _ _ H' _ _ Hb) as (_ & Hp & _);
        destruct (present_slices n b (proj1 (hist_good _ _ _ _ _ _ H')) Hp) as [-> _]; by rewrite H2|]); destruct b as [|y [|]]; try done; exists y; (split; [done|]); by apply HL2.
    + intros (y & -> & Hy%HL2). split; [by left|done].
Qed.
(** Every simple graph with the prescribed degrees is a possible result. *)
Lemma occ_perm l1 : forall l2, (forall x, occ x l1 = occ x l2) -> l1 ≡ₚ l2.
Proof.
  assert (forall x l, x ∈ l <-> 1 <= occ x l) as Hin.
  { intros x l. induction l as [|y l IH]; simpl; [rewrite elem_of_nil; lia|]. rewrite elem_of_cons, IH. destruct (decide (x = y)); [intuition lia|]. intuition lia. }
  induction l1 as [|x l1 IH]; intros l2 H.
  - destruct l2 as [|y l2]; [done|]. specialize (H y). simpl in H. rewrite decide_True in H by done. lia.
  - assert (x ∈ l2) as Hx. { apply Hin. rewrite <- H. simpl. rewrite decide_True by done. lia. }
    apply elem_of_Permutation in Hx as [l2' Hp]. rewrite Hp. constructor. apply IH. intros y. specialize (H y). rewrite Hp in H. simpl in H. lia.
Qed.
Lemma pair_up_flat (L : list (name * name)) : pair_up (L ≫= fun q => [q.1; q.2]) = L.
Proof. induction L as [|[x y] L IH]; [done|]. rewrite bind_cons. cbn [app pair_up fst snd]. by rewrite IH. Qed.
Lemma lists_pairs_cnt L P : lists_pairs L P -> (forall q, q ∈ L -> q.1 <> q.2) /\ (forall p, cnt p L <= 1) /\ forall x y, P x y <-> 1 <= cnt (x, y) L.
Proof.
  intros (Hnd & Hanti & HP). split_and!.
  - intros [x y] Hq. simpl. intros ->. by apply (Hanti y y).
  - clear HP. intros p. induction L as [|q L IH]; [simpl; lia|]. apply NoDup_cons in Hnd as [Hq Hnd].
    specialize (IH Hnd ltac:(intros x y Hx Hy; apply (Hanti x y); by right)). destruct (decide (sameq p q)) as [Hs|Hs]; [|by rewrite cnt_cons_ne].
    rewrite cnt_cons_eq by done. destruct (decide (1 <= cnt p L)) as [Hc|]; [|lia]. exfalso. apply cnt_pos in Hc as (q' & Hq' & Hs').
    assert (sameq q q') as Hqq. { eapply sameq_trans; [by apply sameq_sym|done]. } destruct Hqq as [->| ->]; [done|]. destruct q' as [x y]. simpl in *.
    apply (Hanti x y); [by right|left].
  - intros x y. rewrite HP, cnt_pos. split.
    + intros [H|H]; [exists (x, y)|exists (y, x)]; (split; [done|]); apply sameq_iff; auto.
    + intros ([a b] & Hq & [[-> ->]|[-> ->]]%sameq_iff); auto.
Qed.
(** The stubs of a graph, pair by pair. *)
Definition graph_stubs (L : list (name * name)) : list name := L ≫= fun q => [q.1; q.2].
Lemma graph_stubs_ok degs L P : NoDup (degs.*1) ->
  lists_pairs L P -> (forall x y, P x y -> x ∈ degs.*1 /\ y ∈ degs.*1) ->
  (forall x k, (x, k) ∈ degs -> exists N, lists_exactly N (P x) /\ length N = k) ->
  graph_stubs L ≡ₚ stubs_of degs /\ Nat.even (sum_list (degs.*2)) = true /\ sum_list (degs.*2) <= length degs * (length degs - 1).
Proof.
  intros Hnd HL HP Hdeg. destruct (lists_pairs_cnt L P HL) as (Hns & Hc1 & HPc). unfold graph_stubs. set (sh := L ≫= fun q => [q.1; q.2]).
  assert (length sh = 2 * length L) as Hlsh. { unfold sh. clear. induction L as [|q L IH]; [done|]. rewrite bind_cons, app_length, IH. simpl. lia. }
  assert (Nat.even (length sh) = true) as Hev by by rewrite Hlsh, Nat.even_mul.
  assert (sh ≡ₚ stubs_of degs) as Hsh.
  { apply occ_perm. intros x. rewrite <- tot_pair_up by done. unfold sh. rewrite pair_up_flat.
    destruct (partners_spec x L Hns ltac:(intros; apply Hc1)) as (Hp1 & Hp2 & Hp3). rewrite <- Hp1.
    destruct (decide (x ∈ degs.*1)) as [Hx|Hx].
    - apply elem_of_list_fmap in Hx as ([x' k] & -> & Hx). cbn [fst] in *. rewrite (occ_stubs degs x' k) by done. destruct (Hdeg x' k Hx) as (N & [HN1 HN2] & <-).
      apply Permutation_length, NoDup_same_perm; [done..|]. intros y. by rewrite Hp3, HN2, HPc.
    - destruct (partners x L) as [|y ys].
      + destruct (decide (occ x (stubs_of degs) = 0)) as [->|Hne]; [done|]. exfalso. apply Hx. assert (x ∈ stubs_of degs) as Hs.
        { clear -Hne. induction (stubs_of degs) as [|y l IH]; [done|]. simpl in Hne. rewrite elem_of_cons. destruct (decide (x = y)); [by left|]. right. by apply IH. }
        apply elem_of_stubs in Hs as (k & Hk & _). apply elem_of_list_fmap. by exists (x, k).
      + exfalso. apply Hx. assert (P x y) as Hxy by (apply HPc, Hp3; left). by apply HP in Hxy as [? _]. }
  assert (sum_list (degs.*2) = length sh) as Hsum by by rewrite Hsh, length_stubs.
  assert (sum_list (degs.*2) <= length degs * (length degs - 1)) as Hle.
  { assert (forall xk, xk ∈ degs -> xk.2 <= length degs - 1) as Hk.
    { intros [x k] Hx. destruct (Hdeg x k Hx) as (N & [HN1 HN2] & <-). simpl. assert (x :: N ⊆+ degs.*1) as Hsub.
      { apply NoDup_submseteq.
        - apply NoDup_cons. split; [|done]. rewrite HN2, HPc. intros Hc. apply cnt_pos in Hc as ([a b] & Hq & Hs). apply (Hns _ Hq). apply sameq_iff in Hs as [[? ?]|[? ?]]; simpl; congruence.
        - intros y [->|Hy%HN2]%elem_of_cons; [apply elem_of_list_fmap; by exists (x, length N)|]. by apply HP in Hy as [_ ?]. }
      apply submseteq_length in Hsub. rewrite fmap_length in Hsub. simpl in Hsub. lia. }
    revert Hk. generalize (length degs - 1) as b. clear. intros b. induction degs as [|[x k] d IH]; intros Hk; [simpl; lia|].
    specialize (IH ltac:(intros; apply Hk; by right)). specialize (Hk (x, k) ltac:(left)). rewrite fmap_cons. change (k + sum_list (d.*2) <= b + length d * b). simpl in Hk. lia. }
  split; [done|]. split; [by rewrite Hsum|done].
Qed.
Theorem C36_every_graph degs L P : NoDup (degs.*1) -> (forall x y, x ∈ degs.*1 -> y ∈ degs.*1 -> is_int x = is_int y) ->
  lists_pairs L P -> (forall x y, P x y -> x ∈ degs.*1 /\ y ∈ degs.*1) ->
  (forall x k, (x, k) ∈ degs -> exists N, lists_exactly N (P x) /\ length N = k) ->
  exists sh n, single_layer_conf degs sh [] [] = Ok n /\ simple_net n (fun x => x ∈ degs.*1) P.
Proof.
  intros Hnd Hty HL HP Hdeg. destruct (lists_pairs_cnt L P HL) as (Hns & Hc1 & HPc). destruct (graph_stubs_ok degs L P Hnd HL HP Hdeg) as (Hsh & Hev & Hle).
  set (sh := graph_stubs L) in *.
  destruct (conf_start degs sh Hev Hsh) as (n0 & Eb & H). exists sh.
  unfold single_layer_conf. rewrite Eb. cbn [rbind]. rewrite decide_True by done. rewrite decide_True by done.
  destruct (rfold conf_edge _ _) as [st|e]; cbn [rbind].
  2: { exfalso. destruct H as [_ (a & b & Ha & Hb & Hne)]. apply Hne. by apply Hty. }
  destruct H as (HF & Es & HI & Hb). unfold sh, graph_stubs in Es, HF. rewrite pair_up_flat in Es, HF.
  assert (c_multi st = []) as Em.
  { destruct (c_multi st) as [|p M] eqn:E; [done|]. exfalso. destruct (f_multi _ _ _ _ HF p) as (_ & _ & H2). { rewrite E. left. } specialize (Hc1 p). lia. }
  assert ((c_self st ≫= fun kv => (fun si => (kv.1, si)) <$> kv.2) = []) as E0.
  { destruct (c_self st ≫= _) as [|[x s] S] eqn:E; [done|]. exfalso. pose proof (proj1 (v_selfs _ _ _ _ _ _ _ HI x s) ltac:(left)) as Hs. rewrite Es in Hs.
    by apply (Hns (x, x)); [eapply elem_of_list_lookup_2|]. }
  unfold self_phase. rewrite E0, Em. rewrite E0, Em in HI. cbn [rfold rbind fst]. exists (c_net st). rewrite decide_True by done. cbn [rbind fst]. split; [done|].
  destruct (inv_realises degs st Hnd HI) as (R1 & R2 & R3 & R4 & R5 & R6 & R7). destruct (inv_links degs st HI) as (_ & _ & Hlk). rewrite Es in Hlk.
  split_and!; try done.
  - destruct (v_net _ _ _ _ _ _ _ HI) as [[h Hh] _]. by destruct (hist_inv _ _ _ _ _ _ Hh).
  - intros x y. by rewrite Hlk, HPc.
Qed.

(** ** Concrete runs *)
Definition c36_degs : list (name * nat) := [(NInt 0, 2); (NInt 1, 2); (NInt 2, 1); (NInt 3, 1); (NInt 4, 1); (NInt 5, 1); (NInt 6, 0)].
Definition c36_show (r : res mlnet) : res (list Z) :=
  let? n := r in Ok ((fun x => degree n [NInt x] None) <$> [0; 1; 2; 3; 4; 5; 6]%Z).
(** The shuffle gives the self-links 0-0 and 1-1, which are rewired. *)
Example C36_example_self :
  c36_show (single_layer_conf c36_degs (NInt <$> [0; 0; 2; 3; 4; 5; 1; 1]%Z) [] [(1, 0); (1, 2); (0, 1)]) = Ok [2; 2; 1; 1; 1; 1; 0]%Z.
Proof. by vm_compute. Qed.
(** The shuffle gives the link 0-1 twice. *)
Example C36_example_multi :
  c36_show (single_layer_conf c36_degs (NInt <$> [0; 1; 2; 3; 1; 0; 5; 4]%Z) [(NInt 0, NInt 1)] [(1, 3)]) = Ok [2; 2; 1; 1; 1; 1; 0]%Z.
Proof. by vm_compute. Qed.
Example C36_example_keys : NoDup (c36_degs.*1) /\ NoDup ([(0, 1); (1, 4); (2, 2)].*1).
Proof. split; by apply (bool_decide_unpack _); vm_compute. Qed.
Example C36_example_dist :
  c36_show (single_layer_conf_dist [(0, 1); (1, 4); (2, 2)] [6; 2; 3; 4; 5; 1; 0] (NInt <$> [0; 1; 2; 3; 1; 0; 5; 4]%Z) [(NInt 0, NInt 1)] [(1, 3)]) = Ok [2; 2; 1; 1; 1; 1; 0]%Z.
Proof. by vm_compute. Qed.
Definition c36_net : mlnet :=
  match build (new_net 0 0 false true) ((fun q => OpSet [NInt (q.1); NInt (q.2)] 3) <$> [(0, 1); (1, 2); (0, 3); (4, 5)]%Z) with Ok n => n | Err _ => new_net 0 0 false true end.
Example C36_example_same : degree c36_net [NInt 0] None = 2%Z /\
  c36_show (conf_of c36_net (NInt <$> [0; 1; 2; 3; 1; 0; 5; 4]%Z) [(NInt 0, NInt 1)] [(1, 3)]) = Ok [2; 2; 1; 1; 1; 1; 0]%Z.
Proof. by vm_compute. Qed.
(** Failures: odd sum, too many stubs, names of two types, a lone self-link, and an
    impossible degree sequence, for which the rewiring never ends. *)
Example C36_example_failures :
  single_layer_conf [(NInt 0, 1)] [NInt 0] [] [] = Err AssertionError /\
  single_layer_conf [(NInt 0, 2); (NInt 1, 2)] (NInt <$> [0; 0; 1; 1]%Z) [] [] = Err AssertionError /\
  single_layer_conf [(NInt 0, 1); (NStr "a", 1)] [NInt 0; NStr "a"] [] [] = Err TypeError /\
  single_layer_conf [(NInt 0, 2); (NInt 1, 0)] (NInt <$> [0; 0]%Z) [] [] = Err ValueError /\
  single_layer_conf [(NInt 0, 2); (NInt 1, 2); (NInt 2, 0)] (NInt <$> [0; 1; 0; 1]%Z) [(NInt 0, NInt 1)] [(0, 1); (1, 0)] = Err OutOfFuel.
Proof. by vm_compute. Qed.
Print Assumptions C36_degrees.
Print Assumptions C36_failures.
Print Assumptions C36_distribution.
Print Assumptions C36_same_degrees.
Print Assumptions C36_every_graph.
