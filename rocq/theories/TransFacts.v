(** * Facts about the transformations *)
From Verif Require Export Trans.

(** ** Specification vocabulary *)
(** The coordinates of [a] (the first one being number [k]) whose number is not in [ds]. *)
Fixpoint keep_from (k : nat) (ds : list nat) (a : nl) : nl :=
  match a with
  | [] => []
  | x :: a => (if decide (k ∈ ds) then [] else [x]) ++ keep_from (S k) ds a
  end.
(** The node-layer [a] without the aspects [ds]. *)
Definition keep_coords (ds : list nat) (a : nl) : nl := keep_from 0 ds a.

(** ** What the transformations need to know about their argument *)
Record src_ok (s : src) (P : list (nl * nl)) (R : nl -> nl -> Z) : Prop := {
  so_sl : length (s_sl s) = S (s_asp s);
  so_slnd : Forall NoDup (s_sl s);
  so_fic : s_asp s = 0 -> s_fic s = true;
  so_edges : s_edges s = (fun p => (interleave (p.1) (p.2), R (p.1) (p.2))) <$> P;
  so_nd : NoDup P;
  so_end : forall a b, (a, b) ∈ P -> a ∈ s_nls s /\ b ∈ s_nls s;
  so_noe : forall a b, (a, b) ∈ P -> R a b <> s_noe s;
  so_sym : s_dir s = false -> forall a b, a ∈ s_nls s -> b ∈ s_nls s -> R a b = R b a;
  so_all : forall a b, a ∈ s_nls s -> b ∈ s_nls s -> R a b <> s_noe s -> (a, b) ∈ P \/ (s_dir s = false /\ (b, a) ∈ P);
  so_once : s_dir s = false -> forall a b, (a, b) ∈ P -> (b, a) ∈ P -> a = b;
  so_nlin : forall a, a ∈ s_nls s -> Forall2 (∈) a (s_sl s);
  so_nlall : s_fic s = true -> forall a, Forall2 (∈) a (s_sl s) -> a ∈ s_nls s;
  so_nlnd : NoDup (s_nls s) }.

Lemma rd_sym n x y : good n -> directed n = false -> rd n x y = rd n y x.
Proof. intros [_ HL] Hd. unfold rd. by rewrite (wfL_sym n HL Hd). Qed.
Lemma edges_pairs n : edges n = ptuple n <$> (if directed n then pairs n else upairs n).
Proof. unfold edges, upairs. destruct (directed n); [apply edges_dir_pairs|apply edges_und_pairs]. Qed.
Definition npairs (n : mlnet) : list (nl * nl) := if directed n then pairs n else upairs n.
Lemma npairs_linked n a b : good n -> (a, b) ∈ npairs n -> is_Some (lnk n a b).
Proof. intros Hg. unfold npairs. destruct (directed n) eqn:Hd; [by apply elem_of_pairs|by apply upairs_linked]. Qed.
Lemma present_len n a : good n -> a ∈ iter_node_layers n -> length a = S (aspects n).
Proof. intros [HS _] H. by apply present_length. Qed.
Lemma src_of_ok n : good n -> src_ok (src_of n) (npairs n) (rd n).
Proof.
  intros Hg. pose proof Hg as [HS HL]. constructor; simpl.
  - apply HS.
  - apply HS.
  - intros H0. by apply (wfS_fi0 _ HS).
  - rewrite edges_pairs. unfold npairs. set (L := if directed n then pairs n else upairs n).
    assert (forall a b, (a, b) ∈ L -> length a = length b) as Hl.
    { intros a b Hab. apply (npairs_linked n) in Hab; [|done]. destruct (lnk_lengths _ _ _ Hg Hab). congruence. }
    clearbody L. induction L as [|[a b] L IH]; [done|]. cbn [fmap list_fmap fst snd]. f_equal.
    + unfold ptuple. simpl. rewrite weight_rd; [done|]. apply Hl. left.
    + apply IH. intros a' b' H'. apply Hl. by right.
  - unfold npairs. destruct (directed n); [by apply NoDup_pairs|]. apply NoDup_und_pairs; [done|]. by apply NoDup_cart_slices.
  - intros a b [w Hw]%npairs_linked; [|done]. by destruct (wfL_present _ HL _ _ _ Hw).
  - intros a b H%npairs_linked; [|done]. by apply rd_noEdge.
  - intros Hd a b _ _. by apply rd_sym.
  - intros a b _ _ Hr. apply rd_noEdge in Hr; [|done]. unfold npairs. destruct (directed n) eqn:Hd; [left; by apply elem_of_pairs|].
    destruct (upairs_some n a b Hg Hd Hr); auto.
  - intros Hd a b. unfold npairs. rewrite Hd. intros H1 H2. destruct (decide (a = b)); [done|]. exfalso. by eapply (upairs_once n a b).
  - intros a Ha. apply elem_of_iter_node_layers in Ha as [Ha _]; done.
  - intros Hf a Ha. unfold iter_node_layers. rewrite Hf. by apply elem_of_cart.
  - by apply NoDup_iter_node_layers.
Qed.
Lemma so_len s P R a : src_ok s P R -> a ∈ s_nls s -> length a = S (s_asp s).
Proof. intros H Ha. rewrite <- (so_sl _ _ _ H). eapply Forall2_length. by apply (so_nlin _ _ _ H). Qed.
Lemma so_in s P R a k x : src_ok s P R -> a ∈ s_nls s -> a !! k = Some x -> x ∈ s_layers s k.
Proof.
  intros H Ha Hx. pose proof (so_nlin _ _ _ H a Ha) as HF. destruct (Forall2_lookup_l _ _ _ _ _ HF Hx) as (t & Ht & Hin).
  unfold s_layers. by rewrite Ht.
Qed.

(** ** aggregate: index arithmetic *)
Lemma keep_from_length k ds a : length (keep_from k ds a) = length (filter (fun i => i ∉ ds) (seq k (length a))).
Proof.
  revert k. induction a as [|x a IH]; intros k; [done|]. cbn [keep_from length seq]. rewrite filter_cons.
  destruct (decide (k ∈ ds)); [rewrite decide_False by tauto|rewrite decide_True by done]; simpl; rewrite IH; done.
Qed.
Lemma keep_coords_length asp ds a : NoDup ds -> (forall d, d ∈ ds -> 1 <= d <= asp) -> length a = S asp ->
  length (keep_coords ds a) = S (asp - length ds).
Proof.
  intros Hnd Hd Hl. unfold keep_coords. rewrite keep_from_length, Hl.
  assert (filter (fun i => i ∈ ds) (seq 0 (S asp)) ≡ₚ ds) as HP.
  { apply NoDup_Permutation; [apply NoDup_filter, NoDup_seq|done|]. intros d. rewrite elem_of_list_filter, elem_of_seq.
    split; [tauto|]. intros Hin. specialize (Hd d Hin). split; [done|lia]. }
  assert (forall l : list nat, length (filter (fun i => i ∈ ds) l) + length (filter (fun i => i ∉ ds) l) = length l) as Hc.
  { intros l. induction l as [|i l IH]; [done|]. rewrite !filter_cons.
    destruct (decide (i ∈ ds)); [rewrite (decide_False (P := i ∉ ds)) by tauto|rewrite (decide_True (P := i ∉ ds)) by done]; simpl; lia. }
  specialize (Hc (seq 0 (S asp))). rewrite HP, seq_length in Hc. 
  assert (length ds <= asp). 
  { pose proof (submseteq_length ds (seq 1 asp)) as Hs. rewrite seq_length in Hs. apply Hs. apply NoDup_submseteq; [done|].
    intros d Hin. apply elem_of_seq. specialize (Hd d Hin). lia. }
  lia.
Qed.
Lemma keep_from_lookup_in k ds a j x : keep_from k ds a !! j = Some x -> exists i, i ∉ ds /\ k <= i /\ a !! (i - k) = Some x.
Proof.
  revert k j. induction a as [|y a IH]; intros k j; simpl; [by rewrite lookup_nil|].
  destruct (decide (k ∈ ds)) as [Hk|Hk]; simpl.
  - intros (i & Hi & Hki & Hx)%IH. exists i. split; [done|]. split; [lia|]. replace (i - k) with (S (i - S k)) by lia. done.
  - destruct j as [|j]; simpl; [intros [= ->]; exists k; split; [done|]; split; [lia|]; by rewrite Nat.sub_diag|].
    intros (i & Hi & Hki & Hx)%IH. exists i. split; [done|]. split; [lia|]. replace (i - k) with (S (i - S k)) by lia. done.
Qed.
Lemma keep_coords_cons ds x a : 0 ∉ ds -> keep_coords ds (x :: a) = x :: keep_from 1 ds a.
Proof. intros H. unfold keep_coords. simpl. by rewrite decide_False. Qed.
Lemma keep_coords_node ds a : 0 ∉ ds -> node_of (keep_coords ds a) = node_of a.
Proof. intros H. destruct a as [|x a]; [done|]. by rewrite keep_coords_cons. Qed.
Lemma new_edge_gen (hf : nat -> nat) ds pre a b k L : (forall k, hf (2 * k) = k /\ hf (S (2 * k)) = k) ->
  length pre = 2 * k -> length a = length b -> L = 2 * length a ->
  omap (fun i => (pre ++ interleave a b) !! i) (filter (fun x => hf x ∉ ds) (seq (length pre) L)) =
  interleave (keep_from k ds a) (keep_from k ds b).
Proof.
  intros Hf. revert pre b k L. induction a as [|x a IH]; intros pre [|y b] k L Hp Hl HL; try discriminate.
  - subst L. done.
  - destruct L as [|[|L]]; cbn [length] in HL; [lia|lia|]. cbn [seq interleave keep_from].
    specialize (IH (pre ++ [x; y]) b (S k) L). rewrite app_length in IH. cbn [length] in IH.
    replace (length pre + 2) with (S (S (length pre))) in IH by lia. rewrite <- app_assoc in IH. cbn [app] in IH.
    destruct (Hf k) as [E1 E2]. rewrite <- Hp in E1, E2.
    rewrite filter_cons, filter_cons, E1, E2. destruct (decide (k ∈ ds)) as [Hk|Hk].
    + rewrite !decide_False by tauto. cbn [app]. apply IH; [lia|injection Hl; done|lia].
    + rewrite !decide_True by done.
      assert ((pre ++ x :: y :: interleave a b) !! length pre = Some x) as L1 by by rewrite list_lookup_middle.
      assert ((pre ++ x :: y :: interleave a b) !! S (length pre) = Some y) as L2.
      { rewrite lookup_app_r by lia. replace (S (length pre) - length pre) with 1 by lia. done. }
      cbn [omap list_omap]. rewrite L1, L2. cbn [app interleave]. f_equal. f_equal. apply IH; [lia|injection Hl; done|lia].
Qed.
Lemma new_edge_spec asp ds a b : length a = S asp -> length b = S asp ->
  new_edge asp ds (interleave a b) = interleave (keep_coords ds a) (keep_coords ds b).
Proof.
  intros Ha Hb. unfold new_edge, edge_indices. rewrite <- Ha. apply (new_edge_gen (fun x => x / 2) ds [] a b 0); [|done|congruence|done].
  intros k. split; [rewrite Nat.mul_comm; apply Nat.div_mul; lia|].
  replace (S (2 * k)) with (1 + k * 2) by lia. rewrite Nat.div_add by lia. done.
Qed.
Lemma omap_keep_gen ds pre a : omap (fun i => (pre ++ a) !! i) (filter (fun x => x ∉ ds) (seq (length pre) (length a))) =
  keep_from (length pre) ds a.
Proof.
  revert pre. induction a as [|x a IH]; intros pre; [done|]. cbn [length seq keep_from]. rewrite filter_cons.
  specialize (IH (pre ++ [x])). rewrite app_length, <- app_assoc in IH. simpl in IH. replace (length pre + 1) with (S (length pre)) in IH by lia.
  destruct (decide (length pre ∈ ds)); [rewrite decide_False by tauto; simpl; exact IH|rewrite decide_True by done].
  cbn [omap list_omap]. rewrite list_lookup_middle by done. simpl. f_equal. exact IH.
Qed.
Lemma agg_nl_spec asp ds a : 0 ∉ ds -> length a = S asp ->
  agg_nl asp ds a = OpAddNode (node_of a) (Some (lay_arg (tail (keep_coords ds a)))).
Proof.
  intros H0 Hl. destruct a as [|x a]; [done|]. injection Hl as Hl. unfold agg_nl. rewrite keep_coords_cons by done. simpl.
  rewrite <- Hl. pose proof (omap_keep_gen ds [x] a) as E. simpl in E. by rewrite E.
Qed.
Lemma lay_arg_form asp ls : length ls = asp -> 1 <= asp -> layer_form asp (lay_arg ls).
Proof. intros H1 H2. destruct ls as [|x [|y ls]]; simpl in *; [lia|lia|lia]. Qed.
Lemma lay_arg_creates asp x ls a : length ls = asp -> 1 <= asp ->
  creates asp (OpAddNode x (Some (lay_arg ls))) a <-> a = x :: ls.
Proof.
  intros H1 H2. destruct ls as [|y [|z ls]]; simpl in *; [lia|..]; split; try tauto; intros ->; repeat split; lia.
Qed.
Lemma lay_arg_mentions asp fi x ls k y : length ls = asp -> 1 <= asp ->
  mentions asp fi (OpAddNode x (Some (lay_arg ls))) k y <-> (k = 0 /\ y = x) \/ (fi = false /\ 1 <= k /\ (x :: ls) !! k = Some y).
Proof.
  intros H1 H2. destruct ls as [|z [|z' ls]]; simpl in H1; [lia|..]; cbn [lay_arg mentions].
  - split.
    + intros [H|[(Hf & Ha & -> & [= ->])|(Hf & Ha & _)]]; [by left|right; split; [done|]; split; [lia|done]|lia].
    + intros [H|(Hf & Hk & Hx)]; [by left|]. right. left. destruct k as [|[|k]]; simpl in Hx; [lia| |by rewrite lookup_nil in Hx].
      injection Hx as ->. split_and!; [done|lia|done|done].
  - split.
    + intros [H|[(Hf & Ha & -> & [= ->])|(Hf & Ha & ls' & j & [= <-] & Hj & -> & Hk)]]; [by left|right].
      split; [done|]. split; [lia|]. done.
    + intros [H|(Hf & Hk & Hx)]; [by left|]. right. right. split; [done|]. split; [lia|]. destruct k as [|k]; [lia|].
      exists (z :: z' :: ls), k. split; [done|]. split; [done|]. split; [done|]. apply lookup_lt_Some in Hx. simpl in Hx. lia.
Qed.
Lemma set_full_mentions asp fi a b w k x : length a = S asp -> length b = S asp ->
  mentions asp fi (OpSet (interleave a b) w) k x <-> a !! k = Some x \/ b !! k = Some x.
Proof.
  intros Ha Hb. pose proof (write_of_interleave asp a b w Ha Hb) as Hw. split.
  - intros (a' & b' & w' & Hwr & H). apply writes_spec in Hwr. rewrite Hw in Hwr. by injection Hwr as -> -> ->.
  - intros H. exists a, b, w. split; [by apply writes_spec|done].
Qed.
Lemma set_full_creates asp a b w c : length a = S asp -> length b = S asp ->
  creates asp (OpSet (interleave a b) w) c <-> c = a \/ c = b.
Proof.
  intros Ha Hb. pose proof (write_of_interleave asp a b w Ha Hb) as Hw. split.
  - intros (d & w' & [Hwr|Hwr]); apply writes_spec in Hwr; rewrite Hw in Hwr; injection Hwr as -> -> ->; auto.
  - intros [->| ->]; [exists b, w; left|exists a, w; right]; by apply writes_spec.
Qed.

(** ** aggregate: the loop *)
Definition kept (ds : list nat) (selfE : bool) (p : nl * nl) : Prop :=
  selfE = true \/ keep_coords ds (p.1) <> keep_coords ds (p.2).
Global Instance kept_dec ds selfE p : Decision (kept ds selfE p).
Proof. unfold kept. apply _. Defined.
Definition towards (ds : list nat) (selfE dir : bool) (x y : nl) (p : nl * nl) : Prop :=
  kept ds selfE p /\ hit dir (keep_coords ds (p.1)) (keep_coords ds (p.2)) x y.
Global Instance towards_dec ds selfE dir x y p : Decision (towards ds selfE dir x y p).
Proof. unfold towards. apply _. Defined.

Lemma agg_loop asp asp' noe dir fi ds selfE (R : nl -> nl -> Z) P : 
  (forall a, length a = S asp -> length (keep_coords ds a) = S asp') ->
  (forall a b, (a, b) ∈ P -> length a = S asp /\ length b = S asp) ->
  forall g m, hist asp' noe dir fi g m ->
  (selfE = false \/ dir = true \/ ((forall x y, (noe <= rd m x y)%Z) /\ forall a b, (a, b) ∈ P -> (0 < R a b)%Z)) ->
  exists ops m', rfold (agg_step asp ds selfE) m ((fun p => (interleave (p.1) (p.2), R (p.1) (p.2))) <$> P) = Ok m' /\
    hist asp' noe dir fi (g ++ ops) m' /\
    (forall x y, rd m' x y = (rd m x y + zsumf (fun p => R (p.1) (p.2)) (filter (towards ds selfE dir x y) P))%Z) /\
    (forall o, o ∈ ops -> exists a b w, (a, b) ∈ P /\ kept ds selfE (a, b) /\
       o = OpSet (interleave (keep_coords ds a) (keep_coords ds b)) w) /\
    (forall a b, (a, b) ∈ P -> kept ds selfE (a, b) -> exists w,
       OpSet (interleave (keep_coords ds a) (keep_coords ds b)) w ∈ ops).
Proof.
  intros Hk. induction P as [|[a b] P IH]; intros Hlen g m Hh Hs.
  - exists [], m. rewrite app_nil_r. split; [done|]. split; [done|]. split; [intros x y; change (zsumf _ _) with 0%Z; lia|].
    split; [intros o Ho; by apply elem_of_nil in Ho|]. intros a b Hab. by apply elem_of_nil in Hab.
  - destruct (Hlen a b) as [Ha Hb]; [left|]. pose proof (Hk a Ha) as Hka. pose proof (Hk b Hb) as Hkb.
    assert (forall a b, (a, b) ∈ P -> length a = S asp /\ length b = S asp) as Hlen' by (intros; apply Hlen; by right).
    cbn [fmap list_fmap rfold fst snd]. unfold agg_step at 1. cbn [fst snd]. rewrite new_edge_spec by done.
    rewrite evens_interleave, odds_interleave by congruence.
    destruct (hist_inv _ _ _ _ _ _ Hh) as [HS HL Hma Hmn Hmd Hmf]. pose proof (hist_good _ _ _ _ _ _ Hh) as Hg.
    set (pa := keep_coords ds a) in *. set (pb := keep_coords ds b) in *.
    destruct (selfE || negb (bool_decide (pa = pb))) eqn:Ek.
    + assert (kept ds selfE (a, b)) as Hkept.
      { unfold kept. simpl. apply orb_true_iff in Ek as [?|Ek]; [by left|right]. apply negb_true_iff, bool_decide_eq_false in Ek. done. }
      rewrite (getitem_names m _ pa pb) by (rewrite Hma; by apply names_link_full).
      set (v := (rd m pa pb + R a b)%Z). set (o := OpSet (interleave pa pb) v).
      assert (write_of asp' o = Some (pa, pb, v)) as Hwo by (apply write_of_interleave; done).
      destruct (do_op_ok _ _ _ _ _ _ o Hh) as [m1 E1].
      { exists pa, pb, v. split; [done|]. intros Hv Hd Hab. 
        destruct Hs as [->|[->|[Hs1 Hs2]]]; [|done|].
        - exfalso. simpl in Ek. apply negb_true_iff, bool_decide_eq_false in Ek. done.
        - exfalso. specialize (Hs1 pa pb). specialize (Hs2 a b ltac:(left)). unfold v in Hv. lia. }
      rewrite E1. pose proof (do_op_hist _ _ _ _ _ _ _ _ Hh E1) as Hh1. cbn [rbind].
      assert (forall x y, rd m1 x y = if decide (hit dir pa pb x y) then (rd m x y + R a b)%Z else rd m x y) as Hrd.
      { intros x y. rewrite (hist_refines _ _ _ _ _ _ Hh1), spec_run_snoc. unfold spec_step. rewrite Hwo.
        destruct (decide (hit dir pa pb x y)) as [Hx|Hx]; [|by rewrite (hist_refines _ _ _ _ _ _ Hh)].
        unfold v. f_equal. destruct Hx as [[-> ->]|(-> & -> & ->)]; [done|]. by apply rd_sym. }
      destruct (IH Hlen' _ _ Hh1) as (ops & m' & E & Hh' & Hr & Ho1 & Ho2).
      { destruct Hs as [?|[?|[Hs1 Hs2]]]; [by left|by right; left|]. right. right. split.
        - intros x y. rewrite Hrd. specialize (Hs1 x y). specialize (Hs2 a b ltac:(left)). destruct (decide (hit dir pa pb x y)); lia.
        - intros a' b' H'. apply Hs2. by right. }
      exists (o :: ops), m'. split; [done|]. split; [by rewrite <- app_assoc in Hh'|]. split.
      { intros x y. rewrite Hr, Hrd, filter_cons.
        destruct (decide (hit dir pa pb x y)) as [Hx|Hx].
        - rewrite decide_True by (split; done). rewrite zsumf_cons. simpl. lia.
        - rewrite decide_False; [done|]. intros [_ H']. done. }
      split.
      { intros o' [->|Ho']%elem_of_cons; [exists a, b, v; split; [left|done]|].
        destruct (Ho1 o' Ho') as (a' & b' & w & H' & ?). exists a', b', w. split; [by right|done]. }
      { intros a' b' [[= -> ->]|H']%elem_of_cons Hk'; [exists v; left|]. destruct (Ho2 a' b' H' Hk') as [w ?]. exists w. by right. }
    + assert (~ kept ds selfE (a, b)) as Hnk.
      { unfold kept. simpl. apply orb_false_iff in Ek as [-> Ek]. apply negb_false_iff, bool_decide_eq_true in Ek. intros [?|?]; done. }
      cbn [rbind]. destruct (IH Hlen' _ _ Hh) as (ops & m' & E & Hh' & Hr & Ho1 & Ho2).
      { destruct Hs as [?|[?|[Hs1 Hs2]]]; [by left|by right; left|]. right. right. split; [done|].
        intros a' b' H'. apply Hs2. by right. }
      exists ops, m'. split; [done|]. split; [done|]. split.
      { intros x y. rewrite Hr, filter_cons. rewrite decide_False; [done|]. intros [H' _]. done. }
      split.
      { intros o' Ho'. destruct (Ho1 o' Ho') as (a' & b' & w & H' & ?). exists a', b', w. split; [by right|done]. }
      { intros a' b' [[= -> ->]|H']%elem_of_cons Hk'; [done|]. by apply Ho2. }
Qed.

Lemma mentions_node asp fi x k y : mentions asp fi (OpAddNode x None) k y <-> k = 0 /\ y = x.
Proof.
  simpl. split; [|tauto]. intros [H|[(_ & _ & _ & ?)|(_ & _ & ? & ? & ? & _)]]; [tauto|done|done].
Qed.
Lemma aggregate_spec s P R ds selfE : src_ok s P R -> NoDup ds -> (forall d, d ∈ ds -> 1 <= d <= s_asp s) ->
  (selfE = false \/ s_dir s = true \/ forall a b, (a, b) ∈ P -> (0 < R a b)%Z) ->
  exists n' g, aggregate s ds selfE = Ok n' /\ hist (s_asp s - length ds) (s_noe s) (s_dir s) (s_fic s) g n' /\
    (forall x y, rd n' x y = (s_noe s + zsumf (fun p => R (p.1) (p.2)) (filter (towards ds selfE (s_dir s) x y) P))%Z) /\
    (forall k x, sl n' k x <-> (k = 0 /\ x ∈ s_nodes s) \/
       (1 <= k /\ exists a b, (a, b) ∈ P /\ kept ds selfE (a, b) /\ (keep_coords ds a !! k = Some x \/ keep_coords ds b !! k = Some x)) \/
       (1 <= k /\ s_fic s = false /\ exists a, a ∈ s_nls s /\ keep_coords ds a !! k = Some x)) /\
    (s_fic s = false -> 0 < s_asp s - length ds -> forall x, x ∈ iter_node_layers n' <-> exists a, a ∈ s_nls s /\ x = keep_coords ds a).
Proof.
  intros Hs Hnd Hd HsE. set (asp' := s_asp s - length ds). unfold aggregate. fold asp'.
  assert (0 ∉ ds) as H0 by (intros H'; specialize (Hd 0 H'); lia).
  assert (length ds <= s_asp s) as Hle.
  { pose proof (submseteq_length ds (seq 1 (s_asp s))) as Hl. rewrite seq_length in Hl. apply Hl. apply NoDup_submseteq; [done|].
    intros d Hin. apply elem_of_seq. specialize (Hd d Hin). lia. }
  rewrite decide_True by done.
  replace (forallb _ ds) with true.
  2:{ symmetry. apply forallb_forall. intros d Hin%elem_of_list_In. apply bool_decide_eq_true. specialize (Hd d Hin). lia. }
  assert (forall a, length a = S (s_asp s) -> length (keep_coords ds a) = S asp') as Hk by (intros; by apply keep_coords_length).
  assert (forall a b, (a, b) ∈ P -> length a = S (s_asp s) /\ length b = S (s_asp s)) as Hlen.
  { intros a b [H1 H2]%(so_end _ _ _ Hs). split; by eapply so_len. }
  set (adds := (fun x => OpAddNode x None) <$> s_nodes s).
  destruct (build_new_ok asp' (s_noe s) (s_dir s) (s_fic s) adds) as (m0 & E0 & Hh0).
  { apply Forall_forall. intros o (x & -> & _)%elem_of_list_fmap. done. }
  rewrite E0. cbn [rbind]. rewrite (so_edges _ _ _ Hs).
  assert (forall x y, rd m0 x y = s_noe s) as Hr0.
  { intros x y. rewrite (hist_refines _ _ _ _ _ _ Hh0). apply spec_run_structural.
    apply Forall_forall. intros o (z & -> & _)%elem_of_list_fmap. done. }
  destruct (agg_loop (s_asp s) asp' (s_noe s) (s_dir s) (s_fic s) ds selfE R P Hk Hlen adds m0 Hh0) as (ops & m1 & E1 & Hh1 & Hr1 & Ho1 & Ho2).
  { destruct HsE as [?|[?|?]]; [by left|by right; left|]. right. right. split; [|done]. intros x y. rewrite Hr0. lia. }
  rewrite E1. cbn [rbind].
  set (nls := agg_nl (s_asp s) ds <$> s_nls s).
  assert (forall a, a ∈ s_nls s -> agg_nl (s_asp s) ds a = OpAddNode (node_of a) (Some (lay_arg (tail (keep_coords ds a)))) /\
    length (tail (keep_coords ds a)) = asp' /\ keep_coords ds a = node_of a :: tail (keep_coords ds a)) as Hnl.
  { intros a Ha. pose proof (so_len _ _ _ _ Hs Ha) as Hl. split; [by apply agg_nl_spec|]. pose proof (Hk a Hl) as Hl'. split; [destruct (keep_coords ds a); simpl in *; lia|].
    rewrite <- (keep_coords_node ds a) by done. by destruct (keep_coords ds a). }
  assert (exists n' g2, (if negb (s_fic s) && bool_decide (0 < asp') then build m1 nls else Ok m1) = Ok n' /\
     hist asp' (s_noe s) (s_dir s) (s_fic s) ((adds ++ ops) ++ g2) n' /\ 
     (g2 = if decide (s_fic s = false /\ 0 < asp') then nls else [])) as (n' & g2 & E2 & Hh2 & Hg2).
  { destruct (decide (s_fic s = false /\ 0 < asp')) as [[Hf Ha]|Hn].
    - rewrite Hf, bool_decide_true by done. simpl.
      destruct (build_ok asp' (s_noe s) (s_dir s) (s_fic s) nls _ _ Hh1) as (n' & E2 & Hh2).
      { apply Forall_forall. intros o (a & -> & Hin)%elem_of_list_fmap. destruct (Hnl a Hin) as (-> & Hl & _).
        simpl. right. right. by apply lay_arg_form. }
      exists n', nls. split; [done|]. split; [by rewrite <- Hf|done].
    - exists m1, []. rewrite app_nil_r. split; [|done]. destruct (s_fic s); [done|]. simpl.
      rewrite bool_decide_false; [done|]. tauto. }
  exists n', ((adds ++ ops) ++ g2). split; [done|]. split; [done|].
  assert (Forall structural g2) as Hst.
  { rewrite Hg2. destruct (decide _); [|constructor]. apply Forall_forall. by intros o (a1 & -> & Hin)%elem_of_list_fmap. }
  split; [|split].
  - intros x y. rewrite (hist_refines _ _ _ _ _ _ Hh2), spec_run_app, spec_fold_miss, <- (hist_refines _ _ _ _ _ _ Hh1), Hr1, Hr0; [done|].
    intros o a b w Ho Hw. rewrite Forall_forall in Hst. rewrite structural_write in Hw by auto. done.
  - intros k x. rewrite (hist_sl _ _ _ _ _ _ Hh2). split.
    + intros (o & [[Ho|Ho]%elem_of_app|Ho]%elem_of_app & Hm).
      * apply elem_of_list_fmap in Ho as (y & -> & Hy). apply mentions_node in Hm as [-> ->]. by left.
      * destruct (Ho1 o Ho) as (a & b & w & Hab & Hkp & ->). destruct (Hlen a b Hab) as [Ha Hb].
        apply set_full_mentions in Hm; [|auto|auto]. destruct k as [|k].
        -- left. split; [done|]. destruct (so_end _ _ _ Hs a b Hab) as [Ha' Hb'].
           destruct (Hnl a Ha') as (_ & _ & Ea). destruct (Hnl b Hb') as (_ & _ & Eb). rewrite Ea, Eb in Hm. simpl in Hm.
           destruct Hm as [[= <-]|[= <-]]; [destruct a as [|z a]|destruct b as [|z b]]; try done;
             [eapply (so_in s P R (z :: a) 0)|eapply (so_in s P R (z :: b) 0)]; done.
        -- right. left. split; [lia|]. exists a, b. done.
      * rewrite Hg2 in Ho. destruct (decide _) as [[Hf Ha]|_]; [|by apply elem_of_nil in Ho].
        apply elem_of_list_fmap in Ho as (a & -> & Hin). destruct (Hnl a Hin) as (E & Hl & Ek). rewrite E in Hm.
        apply lay_arg_mentions in Hm; [|done|lia]. destruct Hm as [[-> ->]|(_ & Hk1 & Hx)].
        -- left. split; [done|]. pose proof (so_len _ _ _ _ Hs Hin) as Hla. destruct a as [|z a]; [done|]. by eapply (so_in s P R (z :: a) 0).
        -- right. right. split; [done|]. split; [done|]. exists a. split; [done|]. by rewrite Ek.
    + intros [[-> Hx]|[(Hk1 & a & b & Hab & Hkp & Hx)|(Hk1 & Hf & a & Hin & Hx)]].
      * exists (OpAddNode x None). split; [|by apply mentions_node]. rewrite !elem_of_app. left. left. apply elem_of_list_fmap. eauto.
      * destruct (Ho2 a b Hab Hkp) as [w Hw]. eexists. split; [rewrite !elem_of_app; left; right; exact Hw|].
        destruct (Hlen a b Hab). apply set_full_mentions; auto.
      * destruct (Hnl a Hin) as (E & Hl & Ek).
        assert (k <= asp') as Hka. { apply lookup_lt_Some in Hx. rewrite Hk in Hx by by eapply so_len. lia. }
        exists (agg_nl (s_asp s) ds a). split.
        { rewrite !elem_of_app. right. rewrite Hg2, decide_True by (split; [done|lia]). apply elem_of_list_fmap. eauto. }
        rewrite E. apply lay_arg_mentions; [done|lia|]. right. rewrite decide_False by lia. split; [done|]. split; [done|]. by rewrite <- Ek.
  - intros Hf Ha x. rewrite Hf in Hh2. rewrite (hist_present_nonfic _ _ _ _ _ Hh2) by (fold asp' in Ha; lia). split.
    + intros (o & [[Ho|Ho]%elem_of_app|Ho]%elem_of_app & Hm).
      * apply elem_of_list_fmap in Ho as (y & -> & Hy). done.
      * destruct (Ho1 o Ho) as (a & b & w & Hab & Hkp & ->). destruct (Hlen a b Hab) as [Hla Hlb].
        apply set_full_creates in Hm; [|auto|auto]. destruct (so_end _ _ _ Hs a b Hab). destruct Hm as [->| ->]; eauto.
      * rewrite Hg2, decide_True in Ho by done. apply elem_of_list_fmap in Ho as (a & -> & Hin). destruct (Hnl a Hin) as (E & Hl & Ek). rewrite E in Hm.
        apply lay_arg_creates in Hm; [|done|lia]. exists a. split; [done|]. by rewrite Hm, <- Ek.
    + intros (a & Hin & ->). destruct (Hnl a Hin) as (E & Hl & Ek). exists (agg_nl (s_asp s) ds a). split.
      { rewrite !elem_of_app. right. rewrite Hg2, decide_True by done. apply elem_of_list_fmap. eauto. }
      rewrite E. apply lay_arg_creates; [done|lia|done].
Qed.

(** The sum over the listed edges is the sum over all ordered pairs of linked
    node-layers that project to the two given ones. *)
Lemma agg_sum s P R ds selfE x y : src_ok s P R -> x <> y ->
  exists L, lists_exactly L (fun p => p.1 ∈ s_nls s /\ p.2 ∈ s_nls s /\ R (p.1) (p.2) <> s_noe s /\
                                keep_coords ds (p.1) = x /\ keep_coords ds (p.2) = y) /\
    zsumf (fun p => R (p.1) (p.2)) (filter (towards ds selfE (s_dir s) x y) P) = zsumf (fun p => R (p.1) (p.2)) L.
Proof.
  intros Hs Hne.
  set (F1 := fun p : nl * nl => keep_coords ds (p.1) = x /\ keep_coords ds (p.2) = y).
  set (F2 := fun p : nl * nl => keep_coords ds (p.2) = x /\ keep_coords ds (p.1) = y).
  assert (forall p, Decision (F1 p)) as D1 by (intros; unfold F1; apply _).
  assert (forall p, Decision (F2 p)) as D2 by (intros; unfold F2; apply _).
  exists (filter F1 P ++ (if s_dir s then [] else swp <$> filter F2 P)). split; [split|].
  - apply NoDup_app. split; [apply NoDup_filter, Hs|]. split.
    + intros p (Hp1 & Hp2)%elem_of_list_filter. destruct (s_dir s) eqn:Hd; [apply not_elem_of_nil|].
      intros (q & -> & (Hq1 & Hq2)%elem_of_list_filter)%elem_of_list_fmap. destruct q as [a b]. unfold swp in Hp2. simpl in *.
      pose proof (so_once _ _ _ Hs Hd a b Hq2 Hp2) as ->. destruct Hp1 as [Hp1 Hp1']. simpl in *. congruence.
    + destruct (s_dir s); [constructor|]. apply NoDup_fmap; [|apply NoDup_filter, Hs].
      intros [a b] [c d] [= -> ->]. done.
  - intros [a b]. rewrite elem_of_app, elem_of_list_filter. unfold F1. simpl. split.
    + intros [[Hf Hp]|Hp].
      * destruct (so_end _ _ _ Hs a b Hp). pose proof (so_noe _ _ _ Hs a b Hp). tauto.
      * destruct (s_dir s) eqn:Hd; [by apply elem_of_nil in Hp|]. apply elem_of_list_fmap in Hp as ([c d] & [= -> ->] & Hq).
        apply elem_of_list_filter in Hq as [Hf Hq]. destruct (so_end _ _ _ Hs c d Hq) as [Hc Hd']. unfold F2 in Hf. simpl in Hf.
        split; [done|]. split; [done|]. split; [|done]. rewrite (so_sym _ _ _ Hs Hd d c) by done. by apply (so_noe _ _ _ Hs).
    + intros (Ha & Hb & Hr & Hx & Hy). destruct (so_all _ _ _ Hs a b Ha Hb Hr) as [Hp|[Hd Hp]]; [by left|].
      right. rewrite Hd. apply elem_of_list_fmap. exists (b, a). split; [done|]. apply elem_of_list_filter. split; [done|done].
  - rewrite zsumf_app. 
    assert (zsumf (fun p => R (p.1) (p.2)) (if s_dir s then [] else swp <$> filter F2 P) =
            zsumf (fun p => if decide (s_dir s = false /\ F2 p) then R (p.1) (p.2) else 0%Z) P) as E2.
    { destruct (s_dir s) eqn:Hd.
      - rewrite zsumf_nil. symmetry. apply zsumf_zero. intros p _. rewrite decide_False; [done|]. intros [? _]. done.
      - rewrite zsumf_fmap, zsumf_filter. apply zsumf_ext. intros [a b] Hp. destruct (so_end _ _ _ Hs a b Hp) as [Ha Hb].
        destruct (decide (F2 (a, b))); [rewrite decide_True by done|rewrite decide_False by tauto]; [|done].
        unfold swp. simpl. symmetry. by apply (so_sym _ _ _ Hs Hd). }
    rewrite E2, !zsumf_filter, <- zsumf_add. apply zsumf_ext. intros [a b] Hp.
    destruct (decide (towards ds selfE (s_dir s) x y (a, b))) as [[Hk [[H1 H2]|(H3 & H1 & H2)]]|Hn].
    + rewrite decide_True by (by split). rewrite decide_False; [simpl; lia|]. intros [_ [F _]]. simpl in *. congruence.
    + rewrite decide_False; [|intros [F _]; simpl in *; congruence]. rewrite decide_True; [simpl; lia|]. split; [done|]. by split.
    + assert (forall u v, keep_coords ds a = u -> keep_coords ds b = v -> u <> v -> kept ds selfE (a, b)) as Hkk.
      { intros u v <- <- H'. by right. }
      rewrite decide_False.
      * rewrite decide_False; [simpl; lia|]. intros [Hd [F1' F2']]. apply Hn. simpl in *. split; [by eapply Hkk|]. right. by subst.
      * intros [F1' F2']. apply Hn. simpl in *. split; [by eapply Hkk|]. left. by subst.
Qed.

(** ** overlay_network *)
Definition ov_go (dir : bool) (t : name * (name * name)) : Prop := dir = true \/ py_gt (t.2.1) (t.2.2) = Ok true.
Global Instance res_eq_dec {A} `{EqDecision A} : EqDecision (res A).
Proof. solve_decision. Defined.
Global Instance ov_go_dec dir t : Decision (ov_go dir t).
Proof. unfold ov_go. apply _. Defined.
Definition ov_hits (dir : bool) (x y : name) (t : name * (name * name)) : Prop :=
  ov_go dir t /\ hit false [t.2.1] [t.2.2] [x] [y].
Global Instance ov_hits_dec dir x y t : Decision (ov_hits dir x y t).
Proof. unfold ov_hits. apply _. Defined.

Lemma name_leb_total x y : name_leb x y = true \/ name_leb y x = true.
Proof. destruct x as [a|a], y as [b|b]; simpl; auto; [|apply Coq.Strings.String.leb_total]. rewrite !Z.leb_le. lia. Qed.
Lemma name_leb_antisym x y : name_leb x y = true -> name_leb y x = true -> x = y.
Proof.
  destruct x as [a|a], y as [b|b]; simpl; try done; [rewrite !Z.leb_le; intros; f_equal; lia|].
  intros. f_equal. by apply Coq.Strings.String.leb_antisym.
Qed.
Lemma py_gt_irrefl x : py_gt x x = Ok false.
Proof. unfold py_gt. rewrite eqb_reflx. by destruct (name_leb_total x x) as [-> | ->]. Qed.
Lemma py_gt_antisym x y : py_gt x y = Ok true -> py_gt y x = Ok true -> False.
Proof.
  unfold py_gt. destruct (eqb (is_int x) (is_int y)) eqn:E, (eqb (is_int y) (is_int x)) eqn:E'; try done.
  intros [= H1] [= H2]. apply negb_true_iff in H1, H2. destruct (name_leb_total x y); congruence.
Qed.
Lemma py_gt_total x y : is_int x = is_int y -> x <> y -> py_gt x y = Ok true \/ py_gt y x = Ok true.
Proof.
  intros E Hne. unfold py_gt. rewrite E, !eqb_reflx. destruct (name_leb x y) eqn:H1, (name_leb y x) eqn:H2; auto.
  exfalso. apply Hne. by apply name_leb_antisym.
Qed.
Lemma overlay_step_eq dir w m t : ov_go dir t -> aspects m = 0 ->
  overlay_step dir w m t = let? u := w (t.2.1) (t.2.2) (t.1) in do_op m (OpSet [t.2.1; t.2.2] (rd m [t.2.1] [t.2.2] + u)).
Proof.
  intros Hg Ha. destruct t as [l [i j]]. simpl. unfold ov_go in Hg. simpl in Hg.
  assert ((if dir then Ok true else py_gt i j) = Ok true) as -> by (destruct Hg as [->| ->]; [done|by destruct dir]).
  cbn [rbind]. change [INm i; INm j] with (INm <$> interleave [i] [j]).
  rewrite (getitem_names m _ [i] [j]); [done|]. rewrite Ha. by apply names_link_full.
Qed.
Lemma overlay_loop dir w (W : name -> name -> name -> Z) T : 
  (forall l i j, (l, (i, j)) ∈ T -> ov_go dir (l, (i, j)) -> w i j l = Ok (W i j l)) ->
  (forall l i j, (l, (i, j)) ∈ T -> dir = true \/ exists b, py_gt i j = Ok b) ->
  (forall l i, (l, (i, i)) ∈ T -> dir = true -> (0 <= W i i l)%Z) ->
  forall g m, hist 0 0 false true g m -> (forall x, (0 <= rd m [x] [x])%Z) ->
  exists ops m', rfold (overlay_step dir w) m T = Ok m' /\ hist 0 0 false true (g ++ ops) m' /\
    (forall x y, rd m' [x] [y] = (rd m [x] [y] + zsumf (fun t => W (t.2.1) (t.2.2) (t.1)) (filter (ov_hits dir x y) T))%Z) /\
    (forall o, o ∈ ops -> exists l i j v, (l, (i, j)) ∈ T /\ ov_go dir (l, (i, j)) /\ o = OpSet [i; j] v) /\
    (forall l i j, (l, (i, j)) ∈ T -> ov_go dir (l, (i, j)) -> exists v, OpSet [i; j] v ∈ ops).
Proof.
  induction T as [|[l [i j]] T IH]; intros Hw Hc Hs g m Hh Hp.
  - exists [], m. rewrite app_nil_r. split; [done|]. split; [done|]. split; [intros x y; unfold zsumf, zsum; simpl; lia|].
    split; [intros o Ho; by apply elem_of_nil in Ho|]. intros l i j Hx. by apply elem_of_nil in Hx.
  - destruct (hist_inv _ _ _ _ _ _ Hh) as [HS HL Hma Hmn Hmd Hmf]. pose proof (hist_good _ _ _ _ _ _ Hh) as Hg.
    assert (forall l i j, (l, (i, j)) ∈ T -> ov_go dir (l, (i, j)) -> w i j l = Ok (W i j l)) as Hw' by (intros; apply Hw; [by right|done]).
    assert (forall l i j, (l, (i, j)) ∈ T -> dir = true \/ exists b, py_gt i j = Ok b) as Hc' by (intros l' i' j' ?; apply (Hc l' i' j'); by right).
    assert (forall l i, (l, (i, i)) ∈ T -> dir = true -> (0 <= W i i l)%Z) as Hs' by (intros; apply Hs; [by right|done]).
    cbn [rfold]. destruct (decide (ov_go dir (l, (i, j)))) as [Hgo|Hgo].
    + rewrite overlay_step_eq by done. cbn [fst snd]. rewrite (Hw l i j) by (done || left). cbn [rbind].
      set (v := (rd m [i] [j] + W i j l)%Z). set (o := OpSet [i; j] v).
      assert (write_of 0 o = Some ([i], [j], v)) as Hwo by done.
      destruct (do_op_ok _ _ _ _ _ _ o Hh) as [m1 E1].
      { exists [i], [j], v. split; [done|]. intros Hv _ [= <-]. unfold v in Hv. specialize (Hp i).
        assert (dir = true) as Hd. { destruct Hgo as [?|Hgt]; [done|]. simpl in Hgt. by rewrite py_gt_irrefl in Hgt. }
        specialize (Hs l i ltac:(left) Hd). lia. }
      rewrite E1. pose proof (do_op_hist _ _ _ _ _ _ _ _ Hh E1) as Hh1. cbn [rbind].
      assert (forall x y, rd m1 [x] [y] = if decide (hit false [i] [j] [x] [y]) then (rd m [x] [y] + W i j l)%Z else rd m [x] [y]) as Hrd.
      { intros x y. rewrite (hist_refines _ _ _ _ _ _ Hh1), spec_run_snoc. unfold spec_step. rewrite Hwo.
        destruct (decide (hit false [i] [j] [x] [y])) as [Hx|Hx]; [|by rewrite (hist_refines _ _ _ _ _ _ Hh)].
        unfold v. f_equal. destruct Hx as [[-> ->]|(_ & -> & ->)]; [done|]. by apply rd_sym. }
      destruct (IH Hw' Hc' Hs' _ _ Hh1) as (ops & m' & E & Hh' & Hr & Ho1 & Ho2).
      { intros x. rewrite Hrd. destruct (decide (hit false [i] [j] [x] [x])) as [Hx|Hx]; [|done].
        assert (i = x /\ j = x) as [-> ->] by (destruct Hx as [[[=] [=]]|(_ & [=] & [=])]; by subst).
        destruct Hgo as [Hd|Hgt]; [specialize (Hs l x ltac:(left) Hd); specialize (Hp x); lia|]. simpl in Hgt. by rewrite py_gt_irrefl in Hgt. }
      exists (o :: ops), m'. split; [done|]. split; [by rewrite <- app_assoc in Hh'|]. split.
      { intros x y. rewrite Hr, Hrd, filter_cons.
        destruct (decide (hit false [i] [j] [x] [y])) as [Hx|Hx].
        - rewrite decide_True by (split; done). rewrite zsumf_cons. simpl. lia.
        - rewrite decide_False; [done|]. intros [_ H']. done. }
      split.
      { intros o' [->|Ho']%elem_of_cons; [exists l, i, j, v; split; [left|done]|].
        destruct (Ho1 o' Ho') as (l' & i' & j' & w' & H' & ?). exists l', i', j', w'. split; [by right|done]. }
      { intros l' i' j' [[= -> -> ->]|H']%elem_of_cons Hk'; [exists v; left|]. destruct (Ho2 l' i' j' H' Hk') as [w' ?]. exists w'. by right. }
    + assert (overlay_step dir w m (l, (i, j)) = Ok m) as ->.
      { unfold overlay_step. destruct (Hc l i j ltac:(left)) as [Hd|[b Hb]]; [exfalso; apply Hgo; by left|].
        destruct dir; [exfalso; apply Hgo; by left|]. rewrite Hb. simpl. destruct b; [|done]. exfalso. apply Hgo. by right. }
      cbn [rbind]. destruct (IH Hw' Hc' Hs' _ _ Hh Hp) as (ops & m' & E & Hh' & Hr & Ho1 & Ho2).
      exists ops, m'. split; [done|]. split; [done|]. split.
      { intros x y. rewrite Hr, filter_cons. rewrite decide_False; [done|]. intros [H' _]. done. }
      split.
      { intros o' Ho'. destruct (Ho1 o' Ho') as (l' & i' & j' & w' & H' & ?). exists l', i', j', w'. split; [by right|done]. }
      { intros l' i' j' [[= -> -> ->]|H']%elem_of_cons Hk'; [done|]. by eapply Ho2. }
Qed.
Lemma zsumf_two {A} `{EqDecision A} (f : A -> Z) l a b : NoDup l -> a ∈ l -> b ∈ l -> a <> b ->
  (forall x, x ∈ l -> x <> a -> x <> b -> f x = 0%Z) -> zsumf f l = (f a + f b)%Z.
Proof.
  intros Hnd Ha Hb Hne Hz.
  rewrite (zsumf_ext f (fun x => (if decide (x = a) then f x else 0) + (if decide (x = a) then 0 else f x))%Z).
  2:{ intros x _. destruct (decide (x = a)); lia. }
  rewrite zsumf_add. rewrite (zsumf_single _ l a), (zsumf_single _ l b); try done.
  - rewrite decide_True by done. rewrite decide_False by done. done.
  - intros x Hx Hxb. destruct (decide (x = a)); [done|]. by apply Hz.
  - intros x Hx Hxa. by rewrite decide_False.
Qed.
Lemma elem_of_triples (ls ns : list name) l i j :
  (l, (i, j)) ∈ (ls ≫= fun l => ns ≫= fun i => (fun j => (l, (i, j))) <$> ns) <-> l ∈ ls /\ i ∈ ns /\ j ∈ ns.
Proof.
  rewrite elem_of_list_bind. split.
  - intros (l' & (i' & (j' & [= -> -> ->] & Hj)%elem_of_list_fmap & Hi)%elem_of_list_bind & Hl). done.
  - intros (Hl & Hi & Hj). exists l. split; [|done]. apply elem_of_list_bind. exists i. split; [|done]. apply elem_of_list_fmap. eauto.
Qed.
Lemma overlay_spec dir ns ls w (W : name -> name -> name -> Z) : NoDup ns -> NoDup ls ->
  (forall i j l, i ∈ ns -> j ∈ ns -> l ∈ ls -> dir = true \/ i <> j -> w i j l = Ok (W i j l)) ->
  (dir = false -> ls <> [] -> forall i j, i ∈ ns -> j ∈ ns -> is_int i = is_int j) ->
  (dir = true -> forall i l, i ∈ ns -> l ∈ ls -> (0 <= W i i l)%Z) ->
  (dir = false -> forall i j l, i ∈ ns -> j ∈ ns -> l ∈ ls -> i <> j -> W i j l = W j i l) ->
  exists n' g, overlay 1 dir [ns; ls] w = Ok n' /\ hist 0 0 false true g n' /\
    (forall x y, x ∈ ns -> y ∈ ns -> x <> y ->
       rd n' [x] [y] = zsumf (fun l => if dir then W x y l + W y x l else W x y l)%Z ls) /\
    (forall x, x ∈ ns -> rd n' [x] [x] = if dir then zsumf (fun l => W x x l) ls else 0%Z) /\
    (forall x, sl n' 0 x <-> x ∈ ns /\ ls <> [] /\ (dir = true \/ exists y, y ∈ ns /\ y <> x)).
Proof.
  intros Hns Hls Hw Hc Hself Hsym. unfold overlay. rewrite decide_True by done. cbn [lookup list_lookup default].
  set (T := ls ≫= fun l => ns ≫= fun i => (fun j => (l, (i, j))) <$> ns). change (rfold _ _ _) with (rfold (overlay_step dir w) (new_net 0 0 false true) T).
  assert (forall l i j, (l, (i, j)) ∈ T <-> l ∈ ls /\ i ∈ ns /\ j ∈ ns) as HT by (intros; apply elem_of_triples).
  assert (forall l i j, (l, (i, j)) ∈ T -> ov_go dir (l, (i, j)) -> dir = true \/ i <> j) as Hgo.
  { intros l i j _ [?|Hg]; [by left|right]. intros ->. simpl in Hg. by rewrite py_gt_irrefl in Hg. }
  destruct (overlay_loop dir w W T) with (g := @nil op) (m := new_net 0 0 false true) as (ops & n' & E & Hh & Hr & Ho1 & Ho2).
  - intros l i j Hin Hg. pose proof (Hgo _ _ _ Hin Hg). apply HT in Hin as (? & ? & ?). by apply Hw.
  - intros l i j (Hl & Hi & Hj)%HT. destruct dir; [by left|right]. unfold py_gt. rewrite (Hc eq_refl) with (i := i) (j := j); [|by intros ->; apply elem_of_nil in Hl|done|done].
    rewrite eqb_reflx. eauto.
  - intros l i (Hl & Hi & _)%HT Hd. by apply Hself.
  - constructor.
  - intros x. done.
  - assert (forall x y, rd n' [x] [y] = zsumf (fun l => zsumf (fun i => zsumf (fun j =>
      if decide (ov_hits dir x y (l, (i, j))) then W i j l else 0%Z) ns) ns) ls) as Hsum.
    { intros x y. rewrite Hr. change (rd (new_net 0 0 false true) [x] [y]) with 0%Z. rewrite Z.add_0_l, zsumf_filter.
      unfold T. rewrite zsumf_bind. apply zsumf_ext. intros l _. rewrite zsumf_bind. apply zsumf_ext. intros i _. by rewrite zsumf_fmap. }
    exists n', ops. split; [done|]. split; [done|]. split; [|split].
    + intros x y Hx Hy Hne. rewrite Hsum. apply zsumf_ext. intros l Hl.
      assert (forall i j, i ∈ ns -> j ∈ ns -> ov_hits dir x y (l, (i, j)) -> (i = x /\ j = y) \/ (i = y /\ j = x)) as Hh'.
      { intros i j _ _ [_ [[[=] [=]]|(_ & [=] & [=])]]; subst; auto. }
      rewrite (zsumf_two _ ns x y); [|done..|].
      * rewrite (zsumf_single _ ns y), (zsumf_single _ ns x); try done.
        -- assert (ov_hits true x y (l, (x, y))) as T1 by (split; [by left|by left]).
           assert (ov_hits true x y (l, (y, x))) as T2 by (split; [by left|by right]).
           destruct dir; [rewrite (decide_True _ _ T1), (decide_True _ _ T2); done|].
           assert (ov_hits false x y (l, (x, y)) <-> py_gt x y = Ok true) as T3.
           { split; [intros [[?|?] _]; done|]. intros ?. split; [by right|by left]. }
           assert (ov_hits false x y (l, (y, x)) <-> py_gt y x = Ok true) as T4.
           { split; [intros [[?|?] _]; done|]. intros ?. split; [by right|by right]. }
           destruct (py_gt_total x y) as [G|G]; [apply Hc; try done; by intros ->; apply elem_of_nil in Hl|done|..].
           ++ rewrite decide_True by by apply T3. rewrite decide_False; [lia|]. intros G'%T4. by eapply py_gt_antisym.
           ++ rewrite decide_False; [|intros G'%T3; by eapply py_gt_antisym]. rewrite decide_True by by apply T4. rewrite Z.add_0_l. by apply Hsym.
        -- intros j Hj Hjx. rewrite decide_False; [done|]. intros Hk%Hh'; [|done|done]. destruct Hk as [[? ?]|[? ?]]; congruence.
        -- intros j Hj Hjy. rewrite decide_False; [done|]. intros Hk%Hh'; [|done|done]. destruct Hk as [[? ?]|[? ?]]; congruence.
      * intros i Hi Hix Hiy. apply zsumf_zero. intros j Hj. rewrite decide_False; [done|]. intros Hk%Hh'; [|done|done].
        destruct Hk as [[? ?]|[? ?]]; congruence.
    + intros x Hx. rewrite Hsum.
      assert (forall l i j, ov_hits dir x x (l, (i, j)) -> i = x /\ j = x) as Hh'.
      { intros l i j [_ [[[=] [=]]|(_ & [=] & [=])]]; subst; auto. }
      destruct dir.
      * apply zsumf_ext. intros l Hl. rewrite (zsumf_single _ ns x); [|done..|].
        -- rewrite (zsumf_single _ ns x); [|done..|].
           ++ rewrite decide_True; [done|]. split; [by left|by left].
           ++ intros j Hj Hjx. rewrite decide_False; [done|]. intros Hk%Hh'. tauto.
        -- intros i Hi Hix. apply zsumf_zero. intros j Hj. rewrite decide_False; [done|]. intros Hk%Hh'. tauto.
      * apply zsumf_zero. intros l Hl. apply zsumf_zero. intros i Hi. apply zsumf_zero. intros j Hj.
        rewrite decide_False; [done|]. intros Hk. pose proof (Hh' _ _ _ Hk) as [-> ->]. destruct Hk as [[?|Hg] _]; [done|].
        simpl in Hg. by rewrite py_gt_irrefl in Hg.
    + intros x. rewrite (hist_sl _ _ _ _ _ _ Hh). simpl. split.
      * intros (o & Ho & Hm). destruct (Ho1 o Ho) as (l & i & j & v & Hin & Hg & ->).
        pose proof (Hgo _ _ _ Hin Hg) as Hgo'. apply HT in Hin as (Hl & Hi & Hj).
        apply (set_full_mentions 0 _ [i] [j]) in Hm; [|done|done].
        assert (ls <> []) by (intros ->; by apply elem_of_nil in Hl).
        destruct Hm as [[= <-]|[= <-]]; (split; [done|]; split; [done|]); destruct Hgo' as [?|?]; eauto.
      * intros (Hx & Hl & Hd). destruct ls as [|l ls']; [done|].
        assert (exists i j, i ∈ ns /\ j ∈ ns /\ ov_go dir (l, (i, j)) /\ (i = x \/ j = x)) as (i & j & Hi & Hj & Hg & Hij).
        { destruct dir; [exists x, x; split_and!; try done; by left|]. destruct Hd as [?|(y & Hy & Hyx)]; [done|].
          destruct (py_gt_total x y) as [G|G]; [by apply Hc|done|exists x, y|exists y, x]; split_and!; try done; [by right|by left|by right|by right]. }
        destruct (Ho2 l i j) as [v Hv]; [|done|].
        { apply HT. split; [left|done]. }
        exists (OpSet [i; j] v). split; [done|]. apply (set_full_mentions 0 _ [i] [j]); [done|done|]. destruct Hij as [->| ->]; auto.
Qed.

(** ** subnet *)
Lemma rfold_bind {S A B} (f : S -> B -> res S) (g : A -> list B) l s :
  rfold (fun s x => rfold f s (g x)) s l = rfold f s (l ≫= g).
Proof.
  revert s. induction l as [|x l IH]; intros s; [done|]. cbn [rfold]. change ((x :: l) ≫= g) with (g x ++ (l ≫= g)). rewrite rfold_app.
  destruct (rfold f s (g x)) as [s'|e]; [|done]. cbn [rbind]. apply IH.
Qed.
(** Selected by the arguments: [None] selects every name, otherwise the listed ones. *)
Definition sel_name (o : option (list name)) (x : name) : Prop := match o with None => True | Some l => x ∈ l end.
Definition sel_nl (args : list (option (list name))) (a : nl) : Prop := forall k x o, a !! k = Some x -> args !! k = Some o -> sel_name o x.

Lemma selection_lookup n args k : selection n args !! k =
  (fun o => match o with None => default [] (slices n !! k) | Some l => remove_dups l end) <$> (args !! k).
Proof. unfold selection. by rewrite list_lookup_imap. Qed.
Lemma selection_elem n args k s o x : selection n args !! k = Some s -> args !! k = Some o ->
  x ∈ s <-> sel_name o x /\ (o = None -> sl n k x).
Proof.
  rewrite selection_lookup. intros H Ho. rewrite Ho in H. injection H as <-. destruct o as [l|]; simpl.
  - rewrite elem_of_remove_dups. intuition congruence.
  - unfold sl. destruct (slices n !! k) as [t|]; simpl.
    + split; [intros Hx; split; [done|]; intros _; eauto|]. intros [_ H]. destruct (H eq_refl) as (? & [= <-] & ?). done.
    + split; [intros Hx; by apply elem_of_nil in Hx|]. intros [_ H]. destruct (H eq_refl) as (? & ? & ?). done.
Qed.
Lemma selected_iff n args a : length args = S (aspects n) -> length a = S (aspects n) ->
  (forall k x, a !! k = Some x -> sl n k x) ->
  (selected (selection n args) a = true <-> sel_nl args a) /\ (a ∈ cart (selection n args) <-> sel_nl args a).
Proof.
  intros Hl Ha Hin.
  assert (length (selection n args) = length args) as Hls by (unfold selection; apply imap_length).
  assert (forall k x s, a !! k = Some x -> selection n args !! k = Some s -> exists o, args !! k = Some o /\ (x ∈ s <-> sel_name o x)) as Hk.
  { intros k x s Hx Hs. destruct (args !! k) as [o|] eqn:Ho.
    - exists o. split; [done|]. rewrite (selection_elem n args k s o x Hs Ho). specialize (Hin k x Hx). tauto.
    - rewrite selection_lookup, Ho in Hs. done. }
  assert (a ∈ cart (selection n args) <-> sel_nl args a) as H2.
  { rewrite elem_of_cart. rewrite Forall2_same_length_lookup. split.
    - intros [_ H] k x o Hx Ho. destruct (selection n args !! k) as [s|] eqn:Hs.
      + destruct (Hk k x s Hx Hs) as (o' & Ho' & He). rewrite Ho in Ho'. injection Ho' as <-. apply He. by eapply H.
      + rewrite selection_lookup, Ho in Hs. done.
    - intros H. split; [congruence|]. intros k x s Hx Hs. destruct (Hk k x s Hx Hs) as (o & Ho & He). apply He. by eapply H. }
  split; [|done]. rewrite <- H2, elem_of_cart, Forall2_same_length_lookup. unfold selected. rewrite forallb_forall. split.
  - intros H. split; [congruence|]. intros k x s Hx Hs. specialize (H (k, x)). simpl in H. rewrite Hs in H.
    rewrite lin_true in H. simpl in H. apply H. apply elem_of_list_In, elem_of_imap_pair. done.
  - intros [_ H] [k x] Hp%elem_of_list_In%elem_of_imap_pair. simpl in *.
    assert (is_Some (selection n args !! k)) as [s Hs]. { apply lookup_lt_is_Some. apply lookup_lt_Some in Hp. lia. }
    rewrite Hs. apply lin_true. simpl. by eapply H.
Qed.
Lemma elem_of_sub_layer_ops n args o : length args = S (aspects n) ->
  o ∈ sub_layer_ops n (selection n args) <->
  exists k x arg, o = OpAddLayer x k /\ sl n k x /\ args !! k = Some arg /\ sel_name arg x /\ (fic n = true \/ k <> 0).
Proof.
  intros Hl. unfold sub_layer_ops, sub_elems. rewrite elem_of_list_bind. split.
  - intros (p & (x & -> & Hx)%elem_of_list_fmap & Hp). apply elem_of_list_fmap in Hp as ([k s] & -> & Hp).
    apply elem_of_list_filter in Hp as [Hf Hp]. apply elem_of_imap_pair in Hp. simpl in *.
    apply elem_of_list_filter in Hx as [Hx1 Hx2].
    destruct (args !! k) as [arg|] eqn:Ha; [|rewrite selection_lookup, Ha in Hp; done].
    rewrite (selection_elem n args k s arg x Hp Ha) in Hx2. exists k, x, arg. split; [done|]. split; [|tauto].
    unfold sl. destruct (slices n !! k) as [t|]; [by exists t|by apply elem_of_nil in Hx1].
  - intros (k & x & arg & -> & Hx & Ha & Hs & Hf).
    assert (exists s, selection n args !! k = Some s) as [s Hsel] by (rewrite selection_lookup, Ha; simpl; eauto).
    exists (k, filter (fun x => x ∈ default [] (slices n !! k)) s). split.
    + apply elem_of_list_fmap. exists x. split; [done|]. apply elem_of_list_filter. split.
      * destruct Hx as (t & -> & ?). done.
      * apply (selection_elem n args k s arg x Hsel Ha). done.
    + apply elem_of_list_fmap. exists (k, s). split; [done|]. apply elem_of_list_filter. split; [done|]. by apply elem_of_imap_pair.
Qed.
Lemma sl_le n k x : wfS n -> sl n k x -> k <= aspects n.
Proof. intros HS (s & Hs & _). apply lookup_lt_Some in Hs. rewrite (wfS_len _ HS) in Hs. lia. Qed.
Lemma mentions_layer asp fi l j k x : mentions asp fi (OpAddLayer l j) k x <-> k = j /\ x = l /\ k <= asp.
Proof. done. Qed.
Lemma nodeset_write asp a b w : length a = S asp -> length b = S asp -> write_of asp (OpNodeSet a b w) = Some (a, b, w).
Proof. intros Ha Hb. simpl. by rewrite decide_True. Qed.
Lemma nodeset_mentions asp fi a b w k x : length a = S asp -> length b = S asp ->
  mentions asp fi (OpNodeSet a b w) k x <-> a !! k = Some x \/ b !! k = Some x.
Proof.
  intros Ha Hb. split.
  - intros (a' & b' & w' & (_ & <- & <- & _) & H). done.
  - intros H. exists a, b, w. done.
Qed.
Lemma nodeset_creates asp a b w c : length a = S asp -> length b = S asp ->
  creates asp (OpNodeSet a b w) c <-> c = a \/ c = b.
Proof.
  intros Ha Hb. split.
  - intros (d & w' & [(_ & <- & <- & _)|(_ & <- & <- & _)]); auto.
  - intros [->| ->]; [exists b, w; by left|exists a, w; by right].
Qed.

Lemma elem_of_iter_total_any n a b : good n -> b ∈ iter_total n a None <-> is_Some (lnk n a b) \/ (directed n = true /\ is_Some (lnk n b a)).
Proof.
  intros Hg. destruct (iter_total_exact n a None Hg I) as [_ H]. rewrite H. rewrite !linked_lnk by done. simpl.
  destruct (directed n) eqn:Hd; [tauto|]. rewrite (wfL_sym n (proj2 Hg) Hd b a). intuition congruence.
Qed.
Lemma lnk_slices n a b : good n -> is_Some (lnk n a b) ->
  a ∈ iter_node_layers n /\ b ∈ iter_node_layers n /\ (forall k x, a !! k = Some x -> sl n k x) /\ (forall k x, b !! k = Some x -> sl n k x).
Proof.
  intros [HS HL] [w Hw]. destruct (wfL_present _ HL _ _ _ Hw) as [Ha Hb]. split; [done|]. split; [done|].
  apply elem_of_iter_node_layers in Ha as [Ha _]; [|done]. apply elem_of_iter_node_layers in Hb as [Hb _]; [|done].
  apply nl_in_slices_sl in Ha as [_ Ha]. apply nl_in_slices_sl in Hb as [_ Hb]. done.
Qed.
Lemma elem_of_sub_links n args o : good n -> length args = S (aspects n) ->
  o ∈ (cart (selection n args) ≫= sub_link_ops n (selection n args)) ->
  exists a b, o = OpNodeSet a b (rd n a b) /\ sel_nl args a /\ sel_nl args b /\
    (is_Some (lnk n a b) \/ (directed n = true /\ is_Some (lnk n b a))).
Proof.
  intros Hg Hl (a & Ho & Ha)%elem_of_list_bind.
  assert (length (selection n args) = length args) as Hls by (unfold selection; apply imap_length).
  assert (forall b, b ∈ cart (selection n args) -> length b = S (aspects n)) as Hlen.
  { intros b Hb%elem_of_cart%Forall2_length. congruence. }
  pose proof (Hlen a Ha) as Hla. unfold sub_link_ops in Ho.
  assert (exists b, o = OpNodeSet a b (rd n a b) /\ length b = S (aspects n) /\ (b ∈ cart (selection n args) \/ selected (selection n args) b = true) /\
    (is_Some (lnk n a b) \/ (directed n = true /\ is_Some (lnk n b a)))) as (b & -> & Hlb & Hb & Hk).
  { destruct (decide _) as [_|_]; apply elem_of_list_fmap in Ho as (b & -> & Hb); apply elem_of_list_filter in Hb as [Hb1 Hb2].
    - pose proof (Hlen b Hb2) as Hlb. rewrite weight_rd in * by congruence. exists b. split; [done|]. split; [done|]. split; [by left|]. left. by apply rd_noEdge.
    - apply elem_of_iter_total_any in Hb2; [|done]. exists b. 
      assert (length b = S (aspects n)) as Hlb. { destruct Hb2 as [H|[_ H]]; apply (lnk_lengths n) in H; tauto. }
      rewrite weight_rd by congruence. tauto. }
  exists a, b. split; [done|].
  assert ((forall k x, a !! k = Some x -> sl n k x) /\ (forall k x, b !! k = Some x -> sl n k x)) as [Hsa Hsb].
  { destruct Hk as [Hk|[_ Hk]]; apply (lnk_slices n) in Hk; tauto. }
  destruct (selected_iff n args a Hl Hla Hsa) as [_ Ea]. destruct (selected_iff n args b Hl Hlb Hsb) as [Eb1 Eb2]. tauto.
Qed.
Lemma sub_links_complete n args a b : good n -> length args = S (aspects n) -> is_Some (lnk n a b) -> sel_nl args a -> sel_nl args b ->
  OpNodeSet a b (rd n a b) ∈ (cart (selection n args) ≫= sub_link_ops n (selection n args)).
Proof.
  intros Hg Hl Hk Ha Hb. destruct (lnk_slices n a b Hg Hk) as (_ & _ & Hsa & Hsb). destruct (lnk_lengths n a b Hg Hk) as [Hla Hlb].
  destruct (selected_iff n args a Hl Hla Hsa) as [_ Ea]. destruct (selected_iff n args b Hl Hlb Hsb) as [Eb1 Eb2].
  apply elem_of_list_bind. exists a. split; [|tauto]. rewrite <- weight_rd by congruence. unfold sub_link_ops.
  destruct (decide _) as [_|_]; apply elem_of_list_fmap; exists b; (split; [done|]); apply elem_of_list_filter; split.
  - rewrite weight_rd by congruence. by apply rd_noEdge.
  - tauto.
  - tauto.
  - apply elem_of_iter_total_any; [done|]. by left.
Qed.

Lemma hits_dec asp d (os : list op) x y :
  (exists o a b w, o ∈ os /\ write_of asp o = Some (a, b, w) /\ hit d a b x y) \/
  ~ (exists o a b w, o ∈ os /\ write_of asp o = Some (a, b, w) /\ hit d a b x y).
Proof.
  assert (forall o, Decision (match write_of asp o with Some (a, b, w) => hit d a b x y | None => False end)) as Hd.
  { intros o. destruct (write_of asp o) as [[[a b] w]|]; unfold hit; apply _. }
  destruct (decide (Exists (fun o => match write_of asp o with Some (a, b, w) => hit d a b x y | None => False end) os)) as [He|He].
  - left. apply Exists_exists in He as (o & Ho & He). destruct (write_of asp o) as [[[a b] w]|] eqn:Ew; [|done]. eauto 10.
  - right. intros (o & a & b & w & Ho & Hw & Hh'). apply He. apply Exists_exists. exists o. split; [done|]. by rewrite Hw.
Qed.

Lemma subnet_spec n args nol : good n -> length args = S (aspects n) ->
  exists n' g, subnet n args nol = Ok n' /\ hist (aspects n) (noEdge n) (directed n) (fic n) g n' /\
    (nol = false -> forall x y, sel_nl args x -> sel_nl args y -> rd n' x y = rd n x y) /\
    (forall x y, nol = true \/ ~ (sel_nl args x /\ sel_nl args y) -> rd n' x y = noEdge n) /\
    (forall k x, sl n' k x <->
       ((fic n = true \/ k <> 0) /\ sl n k x /\ exists o, args !! k = Some o /\ sel_name o x) \/
       (fic n = false /\ k = 0 /\ exists a, a ∈ iter_node_layers n /\ sel_nl args a /\ a !! 0 = Some x)) /\
    (fic n = false -> forall a, a ∈ iter_node_layers n' <-> a ∈ iter_node_layers n /\ sel_nl args a).
Proof.
  intros Hg Hl. pose proof Hg as [HS HL]. unfold subnet. rewrite decide_True by done.
  set (sel := selection n args). set (asp := aspects n).
  set (lops := sub_layer_ops n sel).
  set (nops := if fic n then [] else (fun a => OpAddNode (node_of a) (Some (lay_arg (tail a)))) <$> sub_nls n sel).
  set (kops := if nol then [] else cart sel ≫= sub_link_ops n sel).
  assert (forall m, (let? m1 := (if fic n then Ok m else build m ((fun a => OpAddNode (node_of a) (Some (lay_arg (tail a)))) <$> sub_nls n sel)) in
    if nol then Ok m1 else rfold (fun m a => build m (sub_link_ops n sel a)) m1 (cart sel)) = (let? m1 := build m nops in build m1 kops)) as Heq.
  { intros m. unfold nops, kops. destruct (fic n); cbn [rbind]; [change (build m []) with (Ok m); cbn [rbind]|];
      [|destruct (build m _) as [m1|e]; [|done]; cbn [rbind]]; (destruct nol; [done|]); apply rfold_bind. }
  assert (forall a, a ∈ iter_node_layers n -> length a = S asp /\ (forall k x, a !! k = Some x -> sl n k x)) as Hnl.
  { intros a Ha. split; [by apply present_len|]. apply elem_of_iter_node_layers in Ha as [Ha _]; [|done]. by apply nl_in_slices_sl in Ha as [_ Ha]. }
  assert (forall a, a ∈ sub_nls n sel <-> a ∈ iter_node_layers n /\ sel_nl args a) as Hsn.
  { intros a. unfold sub_nls. rewrite elem_of_list_filter. split.
    - intros [H1 H2]. destruct (Hnl a H2) as [Hla Hsa]. destruct (selected_iff n args a Hl Hla Hsa) as [E _]. split; [done|]. by apply E.
    - intros [H1 H2]. destruct (Hnl a H1) as [Hla Hsa]. destruct (selected_iff n args a Hl Hla Hsa) as [E _]. split; [|done]. by apply E. }
  assert (fic n = false -> 1 <= asp) as Hasp.
  { intros Hf. destruct (decide (asp = 0)) as [E|]; [|lia]. apply (wfS_fi0 _ HS) in E. congruence. }
  assert (forall a, a ∈ iter_node_layers n -> length (tail a) = asp /\ a = node_of a :: tail a) as Htl.
  { intros a Ha. destruct (Hnl a Ha) as [Hla _]. destruct a; simpl in *; [lia|]. split; [lia|done]. }
  assert (forall o, o ∈ kops -> exists a b, o = OpNodeSet a b (rd n a b) /\ nol = false /\ sel_nl args a /\ sel_nl args b /\ length a = S asp /\ length b = S asp /\
    a ∈ iter_node_layers n /\ b ∈ iter_node_layers n /\
    (is_Some (lnk n a b) \/ (directed n = true /\ is_Some (lnk n b a)))) as Hko.
  { intros o Ho. unfold kops in Ho. destruct nol; [by apply elem_of_nil in Ho|]. apply elem_of_sub_links in Ho as (a & b & -> & H1 & H2 & H3); [|done|done].
    exists a, b. destruct H3 as [H|[Hd H]]; destruct (lnk_lengths n _ _ Hg H); destruct (lnk_slices n _ _ Hg H) as (? & ? & _); split_and!; auto. }
  destruct (build_new_ok asp (noEdge n) (directed n) (fic n) (lops ++ nops ++ kops)) as (n' & E & Hh).
  { apply Forall_app. split; [|apply Forall_app; split]; apply Forall_forall; intros o Ho.
    - apply elem_of_sub_layer_ops in Ho as (k & x & arg & -> & Hs & _); [|done]. simpl. by eapply sl_le.
    - unfold nops in Ho. destruct (fic n) eqn:Hf; [by apply elem_of_nil in Ho|].
      apply elem_of_list_fmap in Ho as (a & -> & [Ha _]%Hsn). destruct (Htl a Ha) as [Ht _]. simpl. right. right. apply lay_arg_form; [done|auto].
    - destruct (Hko o Ho) as (a & b & -> & _ & _ & _ & Hla & Hlb & _ & _ & Hk). exists a, b, (rd n a b). split; [by apply nodeset_write|].
      destruct Hk as [Hk|[Hd _]]; [left|by right; left]. by apply rd_noEdge. }
  exists n', (lops ++ nops ++ kops). split.
  { rewrite build_app in E. fold lops. destruct (build _ lops) as [m0|e]; [|done]. cbn [rbind] in E |- *. rewrite Heq. rewrite build_app in E. done. }
  split; [done|].
  assert (forall o, o ∈ lops ++ nops -> write_of asp o = None) as Hst.
  { intros o [Ho|Ho]%elem_of_app.
    - by apply elem_of_sub_layer_ops in Ho as (k & x & arg & -> & _).
    - unfold nops in Ho. destruct (fic n); [by apply elem_of_nil in Ho|]. by apply elem_of_list_fmap in Ho as (a & -> & _). }
  assert (forall x y, rd n' x y = fold_left (spec_step asp (directed n)) kops (fun _ _ => noEdge n) x y) as Hrd.
  { intros x y. rewrite (hist_refines _ _ _ _ _ _ Hh), app_assoc, spec_run_app.
    destruct (hits_dec asp (directed n) kops x y) as [Hx|Hx].
    - assert (forall s, fold_left (spec_step asp (directed n)) kops s x y = rd n x y) as Hag.
      { intros s. apply spec_fold_agree; [|done]. intros o' a' b' w' Ho' Hw' Hx'.
        destruct (Hko o' Ho') as (a'' & b'' & -> & _ & _ & _ & Hla & Hlb & _). rewrite nodeset_write in Hw' by done. injection Hw' as -> -> <-.
        destruct Hx' as [[-> ->]|(Hd & -> & ->)]; [done|]. by apply rd_sym. }
      by rewrite !Hag.
    - assert (forall s, fold_left (spec_step asp (directed n)) kops s x y = s x y) as Hm.
      { intros s. apply spec_fold_miss. intros o a b w Ho Hw Hh'. apply Hx. eauto 10. }
      rewrite !Hm. unfold spec_run. rewrite spec_fold_miss; [done|]. intros o a b w Ho Hw. rewrite Hst in Hw by done. done. }
  split; [|split; [|split]].
  - intros Hn x y Hx Hy. rewrite Hrd. destruct (lnk n x y) as [v|] eqn:Ek.
    + assert (is_Some (lnk n x y)) as Hk by eauto. destruct (lnk_lengths n _ _ Hg Hk) as [Hlx Hly].
      apply spec_fold_agree.
      * intros o a b w Ho Hw Hx'. destruct (Hko o Ho) as (a' & b' & -> & _ & _ & _ & Hla & Hlb & _). rewrite nodeset_write in Hw by done. injection Hw as -> -> <-.
        destruct Hx' as [[-> ->]|(Hd & -> & ->)]; [done|]. by apply rd_sym.
      * exists (OpNodeSet x y (rd n x y)), x, y, (rd n x y). split; [|split; [by apply nodeset_write|by left]].
        unfold kops. rewrite Hn. by apply sub_links_complete.
    + assert (rd n x y = noEdge n) as -> by by apply rd_lnk.
      destruct (hits_dec asp (directed n) kops x y) as [Hex|Hno].
      * apply spec_fold_agree; [|done]. intros o a b w Ho Hw Hx'. destruct (Hko o Ho) as (a' & b' & -> & _ & _ & _ & Hla & Hlb & _). rewrite nodeset_write in Hw by done. injection Hw as -> -> <-.
        apply rd_lnk in Ek; [|done]. destruct Hx' as [[-> ->]|(Hd & -> & ->)]; [done|]. by rewrite rd_sym.
      * rewrite spec_fold_miss; [done|]. intros o a b w Ho Hw Hh'. apply Hno. eauto 10.
  - intros x y Hno. rewrite Hrd, spec_fold_miss; [done|]. intros o a b w Ho Hw Hh'.
    destruct (Hko o Ho) as (a' & b' & -> & Hn & Ha & Hb & Hla & Hlb & _). rewrite nodeset_write in Hw by done. injection Hw as -> -> <-.
    destruct Hno as [?|Hno]; [congruence|]. apply Hno. destruct Hh' as [[-> ->]|(_ & -> & ->)]; done.
  - intros k x. rewrite (hist_sl _ _ _ _ _ _ Hh).
    assert ((if decide (asp = 0) then true else fic n) = fic n) as ->.
    { destruct (decide (asp = 0)) as [E0|]; [|done]. symmetry. by apply (wfS_fi0 _ HS). }
    assert (forall a, a ∈ iter_node_layers n -> sel_nl args a -> a !! k = Some x ->
      (fic n = true \/ k <> 0) /\ sl n k x /\ (exists o, args !! k = Some o /\ sel_name o x) \/
      fic n = false /\ k = 0 /\ (exists a, a ∈ iter_node_layers n /\ sel_nl args a /\ a !! 0 = Some x)) as Hgen.
    { intros a Ha Hs Hx. destruct (fic n) eqn:Hf; [|destruct k as [|k]; [right; eauto 10|]]; left; (split; [by auto|]);
        (split; [by apply (proj2 (Hnl a Ha))|]);
        match goal with |- exists o, args !! ?kk = Some o /\ _ => destruct (args !! kk) as [o|] eqn:Ho end;
        [exists o; split; [done|]; by eapply Hs| |exists o; split; [done|]; by eapply Hs|];
        exfalso; apply lookup_ge_None in Ho; apply lookup_lt_Some in Hx; destruct (Hnl a Ha); lia. }
    split.
    + intros (o & [Ho|[Ho|Ho]%elem_of_app]%elem_of_app & Hm).
      * apply elem_of_sub_layer_ops in Ho as (k' & x' & arg & -> & Hs & Ha & Hsel & Hf); [|done].
        apply mentions_layer in Hm as (-> & -> & _). left. split; [done|]. split; [done|]. eauto.
      * unfold nops in Ho. destruct (fic n) eqn:Hf; [by apply elem_of_nil in Ho|].
        apply elem_of_list_fmap in Ho as (a & -> & [Ha Hs]%Hsn). destruct (Htl a Ha) as [Ht Et].
        apply lay_arg_mentions in Hm; [|done|auto]. apply (Hgen a Ha Hs). rewrite Et. destruct Hm as [[-> ->]|(_ & _ & Hx)]; done.
      * destruct (Hko o Ho) as (a & b & -> & _ & Hsa & Hsb & Hla & Hlb & Ha & Hb & _).
        apply nodeset_mentions in Hm; [|done|done]. destruct Hm as [Hm|Hm]; [by apply (Hgen a)|by apply (Hgen b)].
    + intros [(Hf & Hs & arg & Ha & Hsel)|(Hf & -> & a & Ha & Hs & Hx)].
      * exists (OpAddLayer x k). split; [|apply mentions_layer; split; [done|]; split; [done|]; by eapply sl_le].
        apply elem_of_app. left. apply elem_of_sub_layer_ops; [done|]. exists k, x, arg. done.
      * exists (OpAddNode (node_of a) (Some (lay_arg (tail a)))). split.
        { rewrite !elem_of_app. right. left. unfold nops. rewrite Hf. apply elem_of_list_fmap. exists a. split; [done|]. by apply Hsn. }
        destruct (Htl a Ha) as [Ht Et]. apply lay_arg_mentions; [done|auto|]. left. split; [done|]. rewrite Et in Hx. by injection Hx as <-.
  - intros Hf a. rewrite Hf in Hh. rewrite (hist_present_nonfic _ _ _ _ _ Hh) by (specialize (Hasp Hf); lia). split.
    + intros (o & [Ho|[Ho|Ho]%elem_of_app]%elem_of_app & Hm).
      * apply elem_of_sub_layer_ops in Ho as (k' & x' & arg & -> & _); done.
      * unfold nops in Ho. rewrite Hf in Ho. apply elem_of_list_fmap in Ho as (a' & -> & [Ha Hs]%Hsn). destruct (Htl a' Ha) as [Ht Et].
        apply lay_arg_creates in Hm; [|done|auto]. rewrite <- Et in Hm. by subst.
      * destruct (Hko o Ho) as (a' & b & -> & _ & Hsa & Hsb & Hla & Hlb & Ha & Hb & _).
        apply nodeset_creates in Hm; [|done|done]. by destruct Hm as [->| ->].
    + intros [Ha Hs]. exists (OpAddNode (node_of a) (Some (lay_arg (tail a)))). split.
      { rewrite !elem_of_app. right. left. unfold nops. rewrite Hf. apply elem_of_list_fmap. exists a. split; [done|]. by apply Hsn. }
      destruct (Htl a Ha) as [Ht Et]. apply lay_arg_creates; [done|auto|done].
Qed.
