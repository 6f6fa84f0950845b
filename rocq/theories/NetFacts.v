(** * Facts about the MultilayerNetwork model: invariants over all histories. *)
From Verif Require Export Net.

(** ** Index tuples *)
Lemma evens_interleave {A} (a b : list A) : length a = length b -> evens (interleave a b) = a.
Proof.
  revert b. induction a as [|x a IH]; intros [|y b] Hl; simplify_eq/=; [done|].
  by rewrite IH.
Qed.
Lemma odds_cons2 {A} (x y : A) l : odds (x :: y :: l) = y :: odds l.
Proof. unfold odds. simpl. by destruct l. Qed.
Lemma odds_interleave {A} (a b : list A) : length a = length b -> odds (interleave a b) = b.
Proof.
  revert b. induction a as [|x a IH]; intros [|y b] Hl; simplify_eq/=; [done|].
  rewrite odds_cons2. f_equal. by apply IH.
Qed.
Lemma interleave_length {A} (a b : list A) : length a = length b -> length (interleave a b) = 2 * length a.
Proof.
  revert b. induction a as [|x a IH]; intros [|y b] Hl; simplify_eq/=; [done|].
  rewrite IH by done. lia.
Qed.
Lemma even_split {A} (l : list A) k : length l = 2 * k ->
  length (evens l) = k /\ length (odds l) = k /\ interleave (evens l) (odds l) = l.
Proof.
  revert l. induction k as [|k IH]; intros l Hl.
  - destruct l; [done|simpl in *; lia].
  - destruct l as [|x [|y l]]; simpl in *; [lia|lia|].
    destruct (IH l) as (He & Ho & Hi); [lia|]. rewrite odds_cons2. simpl.
    rewrite He, Ho, Hi. auto.
Qed.
Lemma interleave_inj {A} (a b a' b' : list A) :
  length a = length b -> length a' = length b' ->
  interleave a b = interleave a' b' -> a = a' /\ b = b'.
Proof.
  intros H1 H2 Heq. split.
  - by rewrite <- (evens_interleave a b), Heq, evens_interleave.
  - by rewrite <- (odds_interleave a b), Heq, odds_interleave.
Qed.
Lemma link_to_nodes_interleave a b : length a = length b -> link_to_nodes (interleave a b) = (a, b).
Proof. intros. unfold link_to_nodes. by rewrite evens_interleave, odds_interleave. Qed.

Lemma dup_each_length {A} (l : list A) : length (dup_each l) = 2 * length l.
Proof. induction l; simpl; lia. Qed.
Lemma dup_each_interleave {A} (l : list A) : dup_each l = interleave l l.
Proof. induction l; simpl; congruence. Qed.
(** (i,j,s_1..s_d) stands for the pair (i,s_1..s_d),(j,s_1..s_d). *)
Lemma short_link_spec {A} (i j : A) ss : short_link_to_link (i :: j :: ss) = interleave (i :: ss) (j :: ss).
Proof. unfold short_link_to_link. simpl. by rewrite drop_0, dup_each_interleave. Qed.
Lemma short_link_length {A} (l : list A) k : length l = k + 1 -> 1 <= k ->
  length (short_link_to_link l) = 2 * k.
Proof.
  intros Hl Hk. destruct l as [|i [|j ss]]; simpl in Hl; try lia.
  rewrite short_link_spec, interleave_length; simpl; lia.
Qed.

(** ** Nested dictionaries *)
Definition lnk (n : mlnet) (a b : nl) : option Z := dget (adj (nett n) a) b.
Definition rlnk (n : mlnet) (a b : nl) : option Z := dget (adj (rnet n) a) b.

Lemma adj_dset d a r x : adj (dset d a r) x = if decide (x = a) then r else adj d x.
Proof. unfold adj. rewrite dget_dset. by destruct (decide (x = a)). Qed.
Lemma adj_dset_nil d a : dget d a = None -> forall x, adj (dset d a []) x = adj d x.
Proof.
  intros Hd x. rewrite adj_dset. destruct (decide (x = a)) as [->|]; [|done].
  unfold adj. by rewrite Hd.
Qed.
Lemma dget_set2 d a b w x y :
  dget (adj (set2 d a b w) x) y = if decide (x = a /\ y = b) then Some w else dget (adj d x) y.
Proof.
  unfold set2. rewrite adj_dset. destruct (decide (x = a)) as [->|Hx].
  - rewrite dget_dset. destruct (decide (y = b)) as [->|Hy].
    + by rewrite decide_True.
    + rewrite decide_False by naive_solver. done.
  - rewrite decide_False by naive_solver. done.
Qed.
Lemma del2_Some d a b : is_Some (dget (adj d a) b) ->
  exists d', del2 d a b = Some d' /\
    (forall x y, dget (adj d' x) y = if decide (x = a /\ y = b) then None else dget (adj d x) y) /\
    d' = dset d a (ddel (adj d a) b).
Proof.
  intros [w Hw]. unfold del2, adj in *. destruct (dget d a) as [row|] eqn:Ea; simpl in *; [|done].
  rewrite Hw. eexists. split; [done|]. split; [|done]. intros x y.
  fold (adj (dset d a (ddel row b)) x) (adj d x). rewrite adj_dset.
  destruct (decide (x = a)) as [->|Hx].
  - rewrite dget_ddel. unfold adj. rewrite Ea. simpl.
    destruct (decide (y = b)) as [->|Hy].
    + by rewrite decide_True.
    + rewrite decide_False by naive_solver. done.
  - rewrite decide_False by naive_solver. done.
Qed.
Lemma del2_None d a b : dget (adj d a) b = None -> del2 d a b = None.
Proof.
  unfold del2, adj. destruct (dget d a) as [row|]; simpl; [|done]. by intros ->.
Qed.
Lemma in2_true d a b : in2 d a b = true <-> is_Some (dget (adj d a) b).
Proof. unfold in2. apply din_true. Qed.
Lemma in2_false d a b : in2 d a b = false <-> dget (adj d a) b = None.
Proof. unfold in2. apply din_false. Qed.

(** Well-formed nested dictionaries: no duplicate keys at either level. *)
Definition wf2 (d : dict nl (dict nl Z)) : Prop :=
  NoDup (dkeys d) /\ forall a, NoDup (dkeys (adj d a)).
Lemma wf2_dset d a r : wf2 d -> NoDup (dkeys r) -> wf2 (dset d a r).
Proof.
  intros [H1 H2] Hr. split; [by apply NoDup_dset|].
  intros x. rewrite adj_dset. by destruct (decide (x = a)).
Qed.
Lemma wf2_set2 d a b w : wf2 d -> wf2 (set2 d a b w).
Proof. intros Hd. apply wf2_dset; [done|]. apply NoDup_dset, Hd. Qed.
Lemma wf2_nil : wf2 [].
Proof. split; [constructor|]. intros a. constructor. Qed.

(** ** Structural part of the state: nodes, layers, node-layers *)
Definition nl_in_slices (n : mlnet) (a : nl) : Prop := Forall2 (∈) a (slices n).

(** The layers recorded for a node: elementary layers exist. *)
Definition layer_ok (n : mlnet) (l : layer) : Prop :=
  match l with
  | LBare y => aspects n = 1%nat /\ exists s, slices n !! 1%nat = Some s /\ y ∈ s
  | LTup ls => (2 <= aspects n)%nat /\
               forall i y, ls !! i = Some y -> exists s, slices n !! S i = Some s /\ y ∈ s
  end.

Definition n2lv (n : mlnet) (x : name) : list layer := default [] (dget (n2l n) x).
Definition l2nv (n : mlnet) (l : layer) : list name := default [] (dget (l2n n) l).

Record wfS (n : mlnet) : Prop := {
  wfS_len : length (slices n) = S (aspects n);
  wfS_nodup : Forall NoDup (slices n);
  wfS_fi0 : aspects n = 0%nat -> fic n = true;
  wfS_fi : fic n = true -> l2n n = [] /\ n2l n = [];
  wfS_l2n_nd : NoDup (dkeys (l2n n));
  wfS_n2l_nd : NoDup (dkeys (n2l n));
  wfS_l2nv_nd : forall l, NoDup (l2nv n l);
  wfS_n2lv_nd : forall x, NoDup (n2lv n x);
  wfS_mirror : forall x l, x ∈ l2nv n l <-> l ∈ n2lv n x;
  wfS_layer : forall x l, l ∈ n2lv n x -> x ∈ net_nodes n /\ layer_ok n l;
  wfS_n2l_ne : forall x, is_Some (dget (n2l n) x) -> n2lv n x <> [];
}.

(** [m] extends [n] by nodes/layers only. *)
Record sext (n m : mlnet) : Prop := {
  se_asp : aspects m = aspects n;
  se_dir : directed m = directed n;
  se_noe : noEdge m = noEdge n;
  se_fic : fic m = fic n;
  se_net : nett m = nett n;
  se_rnet : rnet m = rnet n;
  se_tot : totdeg m = totdeg n;
  se_sl : Forall2 (fun s t => forall x, x ∈ s -> x ∈ t) (slices n) (slices m);
  se_l2n : forall l x, x ∈ l2nv n l -> x ∈ l2nv m l;
  se_n2l : forall l x, l ∈ n2lv n x -> l ∈ n2lv m x;
}.
Lemma sext_refl n : sext n n.
Proof.
  by split.
Qed.
Lemma sext_trans n m k : sext n m -> sext m k -> sext n k.
Proof.
  intros [] []. split; try congruence; [|naive_solver..].
  revert se_sl0 se_sl1. generalize (slices n) (slices m) (slices k).
  intros l1 l2 l3 H1 H2. revert l3 H2. induction H1 as [|s t l1 l2 Hst H1 IH]; intros l3 H2.
  - apply Forall2_nil_inv_l in H2 as ->. constructor.
  - apply Forall2_cons_inv_l in H2 as (u & l3' & Htu & H2 & ->). constructor; [naive_solver|].
    by apply IH.
Qed.
Lemma sext_slices n m i s x : sext n m -> slices n !! i = Some s -> x ∈ s ->
  exists t, slices m !! i = Some t /\ x ∈ t.
Proof.
  intros Hs Hi Hx. destruct (Forall2_lookup_l _ _ _ _ _ (se_sl _ _ Hs) Hi) as (t & Ht & Hst).
  eauto.
Qed.
Lemma sext_nl n m a : sext n m -> nl_in_slices n a -> nl_in_slices m a.
Proof.
  intros Hs. unfold nl_in_slices. pose proof (se_sl _ _ Hs) as H.
  revert a. induction H as [|s t l1 l2 Hst H IH]; intros a Ha.
  - done.
  - apply Forall2_cons_inv_r in Ha as (x & a' & Hx & Ha & ->). constructor; [by apply Hst|].
    by apply IH.
Qed.
Lemma sext_len n m : sext n m -> length (slices m) = length (slices n).
Proof. intros Hs. symmetry. by eapply Forall2_length, se_sl. Qed.
Lemma sext_layer_ok n m l : sext n m -> layer_ok n l -> layer_ok m l.
Proof.
  intros Hs. pose proof (se_asp _ _ Hs) as Ha. destruct l as [y|ls]; simpl; rewrite Ha.
  - intros [H1 (s & Hsl & Hy)]. split; [done|]. by eapply sext_slices.
  - intros [H1 H2]. split; [done|]. intros i y Hy. destruct (H2 i y Hy) as (s & Hsl & Hys).
    by eapply sext_slices.
Qed.

Lemma slice_add_lookup n i x j :
  slices (slice_add n i x) !! j = if decide (j = i) then sadd x <$> slices n !! i else slices n !! j.
Proof.
  simpl. destruct (decide (j = i)) as [->|Hne].
  - by rewrite list_lookup_alter.
  - by rewrite list_lookup_alter_ne.
Qed.
Lemma slice_add_sext n i x : sext n (slice_add n i x).
Proof.
  split; try done. apply Forall2_same_length_lookup. simpl. rewrite alter_length. split; [done|].
  intros j s t Hs Ht. change (slices (slice_add n i x) !! j = Some t) in Ht.
  rewrite slice_add_lookup in Ht. destruct (decide (j = i)) as [->|Hne].
  - rewrite Hs in Ht. simplify_eq/=. intros y Hy. apply elem_of_sadd. by right.
  - intros y Hy. by simplify_eq.
Qed.
Lemma slice_add_wfS n i x : wfS n -> wfS (slice_add n i x).
Proof.
  intros Hw. pose proof (slice_add_sext n i x) as Hse. destruct Hw. split; try done.
  - simpl. by rewrite alter_length.
  - apply Forall_lookup. intros j s Hs. rewrite slice_add_lookup in Hs.
    rewrite Forall_lookup in wfS_nodup0. destruct (decide (j = i)) as [->|Hne]; [|by eapply wfS_nodup0].
    destruct (slices n !! i) as [t|] eqn:E; simplify_eq/=. apply NoDup_sadd. by eapply wfS_nodup0.
  - intros y l Hl. destruct (wfS_layer0 y l Hl) as [Hy Hlo]. split.
    + unfold net_nodes in *. rewrite slice_add_lookup. destruct (decide _) as [<-|]; [|done].
      destruct (slices n !! 0%nat); simpl in *; [|done]. apply elem_of_sadd. by right.
    + by eapply sext_layer_ok.
Qed.

Lemma add_elayer_wfS n l k n' r : wfS n -> add_elayer n l k = (n', r) ->
  wfS n' /\ sext n n' /\ (r = Ok tt -> exists s, slices n' !! k = Some s /\ l ∈ s) /\
  (r = Err IndexError \/ r = Ok tt) /\ ((k <= aspects n)%nat -> r = Ok tt).
Proof.
  intros Hw. unfold add_elayer. destruct (slices n !! k) as [s|] eqn:E; intros [= <- <-].
  - split_and!; [by apply slice_add_wfS|apply slice_add_sext| |by right|done].
    intros _. exists (sadd l s). rewrite slice_add_lookup, decide_True, E by done.
    split; [done|]. apply elem_of_sadd. by left.
  - split_and!; [done|apply sext_refl|done|by left|].
    intros Hk. apply lookup_ge_None in E. rewrite (wfS_len _ Hw) in E. lia.
Qed.

Lemma add_n2l_values n node l x :
  n2lv (add_node_to_layer n node l) x = if decide (x = node) then sadd l (n2lv n node) else n2lv n x.
Proof.
  unfold n2lv, add_node_to_layer. simpl. rewrite dget_dset. by destruct (decide (x = node)).
Qed.
Lemma add_l2n_values n node l l' :
  l2nv (add_node_to_layer n node l) l' = if decide (l' = l) then sadd node (l2nv n l) else l2nv n l'.
Proof.
  unfold l2nv, add_node_to_layer. simpl. rewrite dget_dset. by destruct (decide (l' = l)).
Qed.
Lemma add_node_to_layer_sext n node l : sext n (add_node_to_layer n node l).
Proof.
  split; try done.
  - intros l' x Hx. rewrite add_l2n_values. destruct (decide (l' = l)) as [->|]; [|done].
    apply elem_of_sadd. by right.
  - intros l' x Hx. rewrite add_n2l_values. destruct (decide (x = node)) as [->|]; [|done].
    apply elem_of_sadd. by right.
Qed.
Lemma add_node_to_layer_wfS n node l :
  wfS n -> fic n = false -> node ∈ net_nodes n -> layer_ok n l -> wfS (add_node_to_layer n node l).
Proof.
  intros Hw Hf Hn Hl. pose proof (add_node_to_layer_sext n node l) as Hse. destruct Hw. split; try done.
  - simpl. congruence.
  - simpl. by apply NoDup_dset.
  - simpl. by apply NoDup_dset.
  - intros l'. rewrite add_l2n_values. destruct (decide _); [|done]. by apply NoDup_sadd.
  - intros x. rewrite add_n2l_values. destruct (decide _); [|done]. by apply NoDup_sadd.
  - intros x l'. rewrite add_l2n_values, add_n2l_values.
    destruct (decide (l' = l)) as [->|H1], (decide (x = node)) as [->|H2];
      rewrite ?elem_of_sadd, ?wfS_mirror0; naive_solver.
  - intros x l'. rewrite add_n2l_values. destruct (decide (x = node)) as [->|H2].
    + rewrite elem_of_sadd. intros [->|H3].
      * split; [done|]. by eapply sext_layer_ok.
      * destruct (wfS_layer0 _ _ H3). split; [done|]. by eapply sext_layer_ok.
    + intros H3. destruct (wfS_layer0 _ _ H3). split; [done|]. by eapply sext_layer_ok.
  - intros x. rewrite add_n2l_values. simpl. rewrite dget_dset. destruct (decide (x = node)); [|by apply wfS_n2l_ne0].
    intros _ He. assert (l ∈ sadd l (n2lv n node)) as Hin by (apply elem_of_sadd; by left).
    rewrite He in Hin. by apply elem_of_nil in Hin.
Qed.

Lemma net_nodes_slice_add0 n x : wfS n -> x ∈ net_nodes (slice_add n 0 x).
Proof.
  intros Hw. unfold net_nodes. rewrite slice_add_lookup, decide_True by done.
  destruct (slices n !! 0%nat) as [s|] eqn:E; simpl.
  - apply elem_of_sadd. by left.
  - apply lookup_ge_None in E. rewrite (wfS_len _ Hw) in E. lia.
Qed.
Lemma net_nodes_sext n m x : sext n m -> x ∈ net_nodes n -> x ∈ net_nodes m.
Proof.
  intros Hs. unfold net_nodes. destruct (slices n !! 0%nat) as [s|] eqn:E; simpl.
  - intros Hx. destruct (sext_slices _ _ _ _ _ Hs E Hx) as (t & -> & Ht). done.
  - by intros ?%elem_of_nil.
Qed.

(** The loop of [add_node] over a layer tuple. *)
Definition add_node_loop (m : mlnet) (p : nat * name) : out mlnet unit :=
  match slices m !! S (p.1) with
  | None => (m, Err IndexError)
  | Some s => if lin (p.2) s then (m, Ok tt) else add_elayer m (p.2) (S (p.1))
  end.

Lemma add_node_loop_step n p n' r : wfS n -> add_node_loop n p = (n', r) ->
  wfS n' /\ sext n n' /\ (r = Ok tt -> exists s, slices n' !! S (p.1) = Some s /\ p.2 ∈ s) /\
  (r = Err IndexError \/ r = Ok tt) /\ ((S (p.1) <= aspects n)%nat -> r = Ok tt).
Proof.
  intros Hw. unfold add_node_loop. destruct (slices n !! S (p.1)) as [s|] eqn:E.
  - destruct (lin (p.2) s) eqn:El.
    + intros [= <- <-]. apply lin_true in El. split_and!; [done|apply sext_refl| |by right|done].
      intros _. eauto.
    + intros H. by apply (add_elayer_wfS _ _ _ _ _ Hw).
  - intros [= <- <-]. split_and!; [done|apply sext_refl|done|by left|].
    intros Hk. apply lookup_ge_None in E. rewrite (wfS_len _ Hw) in E. lia.
Qed.

Lemma add_node_loop_fold n ps n' r : wfS n -> ofold add_node_loop n ps = (n', r) ->
  wfS n' /\ sext n n' /\
  (r = Ok tt -> forall p, p ∈ ps -> exists s, slices n' !! S (p.1) = Some s /\ p.2 ∈ s) /\
  (r = Err IndexError \/ r = Ok tt) /\
  ((forall p, p ∈ ps -> (S (p.1) <= aspects n)%nat) -> r = Ok tt).
Proof.
  revert n. induction ps as [|p ps IH]; intros n Hw; cbn [ofold].
  - intros [= <- <-]. split_and!; [done|apply sext_refl| |by right|done].
    intros _ p Hp. by apply elem_of_nil in Hp.
  - destruct (add_node_loop n p) as [n1 r1] eqn:E1.
    destruct (add_node_loop_step _ _ _ _ Hw E1) as (Hw1 & Hs1 & Hin1 & Hr1 & Hok1).
    destruct r1 as [[]|e1].
    + intros Hf. destruct (IH n1 Hw1 Hf) as (Hw2 & Hs2 & Hin2 & Hr2 & Hok2).
      split_and!; [done|by eapply sext_trans| |done|].
      * intros Hr q [->|Hq]%elem_of_cons; [|by apply Hin2].
        destruct (Hin1 eq_refl) as (s & Hsl & Hqs). by eapply sext_slices.
      * intros Hall. apply Hok2. intros q Hq. rewrite (se_asp _ _ Hs1). apply Hall. by right.
    + intros [= <- <-]. destruct Hr1 as [[= ->]|?]; [|done].
      split_and!; [done|done|done|by left|].
      intros Hall. exfalso. assert (Err IndexError = Ok tt) by (apply Hok1, Hall; left). done.
Qed.

(** The node-layer [(node, layer)] is recorded (only meaningful if not [fic]). *)
Lemma add_node_wfS n node lay n' r : wfS n -> add_node n node lay = (n', r) ->
  wfS n' /\ sext n n' /\ node ∈ net_nodes n' /\
  (forall l, r = Ok tt -> lay = Some l -> fic n = false -> layer_ok n' l /\ node ∈ l2nv n' l) /\
  (lay = None -> r = Ok tt) /\
  (fic n = true -> r = Ok tt) /\
  (aspects n = 1%nat -> forall y, lay = Some (LBare y) -> r = Ok tt) /\
  ((2 <= aspects n)%nat -> forall ls, lay = Some (LTup ls) -> (length ls <= aspects n)%nat -> r = Ok tt).
Proof.
  intros Hw. unfold add_node. cbv zeta.
  pose proof (slice_add_wfS n 0 node Hw) as Hw0.
  pose proof (slice_add_sext n 0 node) as Hs0.
  pose proof (net_nodes_slice_add0 n node Hw) as Hn0.
  destruct lay as [l|].
  2:{ intros [= <- <-]. split_and!; naive_solver. }
  destruct (fic n) eqn:Hf.
  { intros [= <- <-]. split_and!; naive_solver. }
  destruct l as [y|ls].
  - destruct (decide (aspects n = 1%nat)) as [Ha|Ha].
    2:{ intros [= <- <-]. split_and!; try done; naive_solver. }
    assert (exists s, slices (slice_add n 0 node) !! 1%nat = Some s) as [s Hs].
    { apply lookup_lt_is_Some. rewrite (wfS_len _ Hw0). simpl. lia. }
    rewrite Hs. cbv beta iota.
    assert (exists m, (if lin y s then (slice_add n 0 node, Ok tt) else add_elayer (slice_add n 0 node) y 1) = (m, Ok tt)
      /\ wfS m /\ sext (slice_add n 0 node) m /\ exists s, slices m !! 1%nat = Some s /\ y ∈ s) as (m & -> & Hwm & Hsm & Hym).
    { destruct (lin y s) eqn:El.
      - apply lin_true in El. exists (slice_add n 0 node). split_and!; eauto using sext_refl.
      - destruct (add_elayer (slice_add n 0 node) y 1) as [m r1] eqn:E.
        destruct (add_elayer_wfS _ _ _ _ _ Hw0 E) as (? & ? & Hin & ? & Hok).
        assert (r1 = Ok tt) as -> by (apply Hok; simpl; lia). exists m. split_and!; eauto. }
    cbn [obind]. intros [= <- <-].
    assert (layer_ok m (LBare y)) as Hlo.
    { split; [|done]. by rewrite (se_asp _ _ Hsm). }
    assert (node ∈ net_nodes m) by by eapply net_nodes_sext.
    pose proof (add_node_to_layer_sext m node (LBare y)) as Hs2.
    split_and!.
    + apply add_node_to_layer_wfS; [done| |done|done]. by rewrite (se_fic _ _ Hsm).
    + eauto using sext_trans.
    + by eapply net_nodes_sext.
    + intros l _ [= <-] _. split; [by eapply sext_layer_ok|].
      rewrite add_l2n_values, decide_True by done. apply elem_of_sadd. by left.
    + done.
    + done.
    + done.
    + done.
  - destruct (decide (2 <= aspects n)%nat) as [Ha|Ha].
    2:{ intros [= <- <-]. split_and!; try done; naive_solver. }
    change (ofold _ _ _) with (ofold add_node_loop (slice_add n 0 node) (imap pair ls)).
    destruct (ofold add_node_loop (slice_add n 0 node) (imap pair ls)) as [m r1] eqn:E.
    destruct (add_node_loop_fold _ _ _ _ Hw0 E) as (Hwm & Hsm & Hin & Hr1 & Hok).
    assert (length ls <= aspects n -> r1 = Ok tt) as Hlen.
    { intros Hle. apply Hok. intros p (i & y & -> & Hi)%elem_of_lookup_imap. simpl.
      apply lookup_lt_Some in Hi. lia. }
    assert (node ∈ net_nodes m) by by eapply net_nodes_sext.
    destruct r1 as [[]|e].
    + cbn [obind]. intros [= <- <-].
      assert (layer_ok m (LTup ls)) as Hlo.
      { split; [by rewrite (se_asp _ _ Hsm)|]. intros i y Hi.
        apply (Hin eq_refl (i, y)). apply elem_of_lookup_imap. eauto. }
      pose proof (add_node_to_layer_sext m node (LTup ls)) as Hs2.
      split_and!.
      * apply add_node_to_layer_wfS; [done| |done|done]. by rewrite (se_fic _ _ Hsm).
      * eauto using sext_trans.
      * by eapply net_nodes_sext.
      * intros l _ [= <-] _. split; [by eapply sext_layer_ok|].
        rewrite add_l2n_values, decide_True by done. apply elem_of_sadd. by left.
      * done.
      * done.
      * done.
      * done.
    + cbn [obind]. intros [= <- <-]. split_and!; eauto using sext_trans; try done.
      intros _ ls' [= <-] Hle. by apply Hlen.
Qed.

Lemma add_layer_wfS n l k n' r : wfS n -> add_layer n l k = (n', r) ->
  wfS n' /\ sext n n' /\ ((k <= aspects n)%nat -> r = Ok tt) /\
  (r = Ok tt -> exists s, slices n' !! k = Some s /\ l ∈ s).
Proof.
  intros Hw. unfold add_layer. destruct (decide (k = 0%nat)) as [->|Hk]; intros H.
  - destruct (add_node_wfS _ _ _ _ _ Hw H) as (Hw1 & Hs1 & Hn & _ & Hok & _).
    split_and!; [done|done|intros; by apply Hok|].
    intros _. unfold net_nodes in Hn. destruct (slices n' !! 0%nat); [eauto|].
    by apply elem_of_nil in Hn.
  - destruct (add_elayer_wfS _ _ _ _ _ Hw H) as (? & ? & ? & ? & ?). split_and!; auto.
Qed.

(** ** The node/layer phase of [__setitem__] *)
Lemma lookup_evens {A} (l : list A) j : evens l !! j = l !! (2 * j).
Proof.
  revert l. induction j as [|j IH]; intros l.
  - destruct l as [|x [|y l]]; done.
  - destruct l as [|x [|y l]].
    + by rewrite !lookup_nil.
    + simpl. rewrite lookup_nil. symmetry. apply lookup_ge_None. simpl. lia.
    + replace (2 * S j) with (S (S (2 * j))) by lia. simpl. apply IH.
Qed.
Lemma lookup_odds {A} (l : list A) j : odds l !! j = l !! (2 * j + 1).
Proof.
  unfold odds. rewrite lookup_evens. replace (2 * j + 1) with (S (2 * j)) by lia.
  destruct l as [|x l]; simpl; [|done]. by rewrite lookup_nil.
Qed.

Lemma add_layers_fold n (f : nat * name -> nat) ps n' r : wfS n ->
  ofold (fun m p => add_layer m (p.2) (f p)) n ps = (n', r) ->
  (forall p, p ∈ ps -> (f p <= aspects n)%nat) ->
  wfS n' /\ sext n n' /\ r = Ok tt /\
  forall p, p ∈ ps -> exists s, slices n' !! (f p) = Some s /\ p.2 ∈ s.
Proof.
  revert n. induction ps as [|p ps IH]; intros n Hw; cbn [ofold].
  - intros [= <- <-] _. split_and!; [done|apply sext_refl|done|]. intros p Hp. by apply elem_of_nil in Hp.
  - destruct (add_layer n (p.2) (f p)) as [n1 r1] eqn:E1. intros Hf Hall.
    destruct (add_layer_wfS _ _ _ _ _ Hw E1) as (Hw1 & Hs1 & Hok & Hin).
    assert (r1 = Ok tt) as -> by (apply Hok, Hall; left).
    destruct (IH n1 Hw1 Hf) as (Hw2 & Hs2 & Hr & Hin2).
    { intros q Hq. rewrite (se_asp _ _ Hs1). apply Hall. by right. }
    split_and!; [done|by eapply sext_trans|done|].
    intros q [->|Hq]%elem_of_cons; [|by apply Hin2].
    destruct (Hin eq_refl) as (s & Hsl & Hqs). by eapply sext_slices.
Qed.

Lemma layer_of_sext n m a : sext n m -> layer_of m a = layer_of n a.
Proof. intros Hs. unfold layer_of. by rewrite (se_asp _ _ Hs). Qed.

Lemma nl_of_layer_of n a : a <> [] -> nl_of (node_of a) (layer_of n a) = a.
Proof.
  destruct a as [|x [|y [|z a]]]; simpl; try done. by destruct (decide _).
Qed.

Lemma elem_of_iter_node_layers n a : wfS n ->
  a ∈ iter_node_layers n <->
  nl_in_slices n a /\ (fic n = false -> node_of a ∈ l2nv n (layer_of n a)).
Proof.
  intros Hw. unfold iter_node_layers, nl_in_slices. destruct (fic n) eqn:Hf.
  - rewrite elem_of_cart. naive_solver.
  - assert (aspects n <> 0%nat) as Ha0 by (intros ?%(wfS_fi0 _ Hw); congruence).
    assert (forall node l, node ∈ l2nv n l -> node ∈ net_nodes n /\ layer_ok n l) as Hlay.
    { intros node l Hnode. apply (wfS_layer _ Hw). by apply (wfS_mirror _ Hw). }
    pose proof (wfS_len _ Hw) as Hlen.
    rewrite elem_of_list_bind. unfold iter_nodes. rewrite Hf. fold (l2nv n).
    split.
    + intros (l & Ha & Hl). apply elem_of_list_fmap in Ha as (node & -> & Hnode).
      unfold iter_layers in Hl. change (node ∈ l2nv n l) in Hnode.
      destruct (Hlay _ _ Hnode) as [Hn Hok]. unfold net_nodes in Hn.
      destruct (slices n) as [|s0 ss] eqn:Es; [done|]. simpl in Hn.
      destruct (decide (1 < aspects n)%nat) as [H1|H1].
      * apply elem_of_list_fmap in Hl as (ls & -> & Hls). apply elem_of_cart in Hls.
        simpl in Hls. rewrite drop_0 in Hls. simpl. split; [by constructor|].
        intros _. unfold layer_of. pose proof (Forall2_length _ _ _ Hls).
        simpl in Hlen. destruct ls as [|l1 [|l2 ls]]; simpl in *; try lia. done.
      * destruct (decide (aspects n = 1%nat)) as [H2|H2]; [|by apply elem_of_nil in Hl].
        apply elem_of_list_fmap in Hl as (l' & -> & Hl'). simpl in Hl', Hlen.
        destruct ss as [|s1 [|s2 ss]]; simpl in *; try lia.
        split; [by repeat constructor|]. intros _. by rewrite decide_True.
    + intros [Ha Hnode]. specialize (Hnode eq_refl).
      pose proof (Forall2_length _ _ _ Ha) as Hla.
      exists (layer_of n a). split.
      * apply elem_of_list_fmap. exists (node_of a). split; [|done].
        symmetry. apply nl_of_layer_of. intros ->. simpl in *. lia.
      * unfold iter_layers. destruct (slices n) as [|s0 ss] eqn:Es; [done|].
        apply Forall2_cons_inv_r in Ha as (x & a' & Hx & Ha & ->). simpl in Hlen, Hla.
        destruct (decide (1 < aspects n)%nat) as [H1|H1].
        -- apply elem_of_list_fmap. exists a'. split; [|by apply elem_of_cart].
           destruct a' as [|l1 [|l2 a']]; simpl in *; [lia|lia|done].
        -- rewrite decide_True by lia.
           destruct a' as [|l1 [|l2 a']]; simpl in *; [lia| |lia].
           rewrite decide_True by lia. apply elem_of_list_fmap. exists l1. split; [done|].
           apply Forall2_cons_inv_l in Ha as (s1 & ss' & Hl1 & _ & ->). done.
Qed.

(** [present n a]: [a] is a node-layer of the network. *)
Notation present n a := (a ∈ iter_node_layers n).
Lemma present_sext n m a : wfS n -> wfS m -> sext n m -> present n a -> present m a.
Proof.
  intros Hn Hm Hs. rewrite !elem_of_iter_node_layers by done. intros [H1 H2]. split.
  - by eapply sext_nl.
  - rewrite (se_fic _ _ Hs). intros Hf. rewrite (layer_of_sext _ _ _ Hs). by apply (se_l2n _ _ Hs), H2.
Qed.
Lemma present_length n a : wfS n -> present n a -> length a = S (aspects n).
Proof.
  intros Hw. rewrite elem_of_iter_node_layers by done. intros [H _].
  rewrite <- (wfS_len _ Hw). by eapply Forall2_length.
Qed.

(** The structural phase of [setitem] for a full link. *)
Definition prep (n : mlnet) (link : list name) : out mlnet unit :=
  let '(a, b) := link_to_nodes link in
  obind
    (if fic n then
       ofold (fun m p => add_layer m (p.2) (p.1 / 2)) n (imap pair (take 2 link))
     else
       obind (add_node n (node_of a) (Some (layer_of n a)))
             (fun m _ => add_node m (node_of b) (Some (layer_of m b))))
    (fun n1 _ =>
       ofold (fun m p => add_layer m (p.2) ((p.1 + 2) / 2)) n1 (imap pair (drop 2 link))).
Lemma setitem_prep_eq n item w link : setitem_link n item = Ok link ->
  setitem n item w = obind (prep n link) (fun n2 _ => set_link n2 link w).
Proof.
  intros Hl. unfold setitem, prep. rewrite Hl. unfold link_to_nodes.
  destruct (if fic n then _ else _) as [n1 [[]|e]]; cbn [obind]; done.
Qed.

Lemma prep_ok n link : wfS n -> length link = 2 * S (aspects n) ->
  exists n2, prep n link = (n2, Ok tt) /\ wfS n2 /\ sext n n2 /\
    present n2 (evens link) /\ present n2 (odds link).
Proof.
  intros Hw Hlen. pose proof (even_split _ _ Hlen) as (Hle & Hlo & Hint).
  unfold prep, link_to_nodes.
  set (a := evens link) in *. set (b := odds link) in *.
  assert (exists n1, (if fic n then
       ofold (fun m p => add_layer m (p.2) (p.1 / 2)) n (imap pair (take 2 link))
     else
       obind (add_node n (node_of a) (Some (layer_of n a)))
             (fun m _ => add_node m (node_of b) (Some (layer_of m b)))) = (n1, Ok tt) /\
     wfS n1 /\ sext n n1 /\ node_of a ∈ net_nodes n1 /\ node_of b ∈ net_nodes n1 /\
     (fic n = false -> node_of a ∈ l2nv n1 (layer_of n a) /\ node_of b ∈ l2nv n1 (layer_of n b)))
    as (n1 & E1 & Hw1 & Hs1 & Hna & Hnb & Hlay).
  { destruct (fic n) eqn:Hf.
    - destruct (ofold _ n _) as [n1 r1] eqn:E.
      destruct (add_layers_fold _ (fun p => p.1 / 2) _ _ _ Hw E) as (Hw1 & Hs1 & -> & Hin).
      { intros p (i & y & -> & Hi)%elem_of_lookup_imap. simpl. apply lookup_lt_Some in Hi.
        rewrite take_length in Hi. destruct i as [|[|i]]; simpl; lia. }
      exists n1. split_and!; [done..| | |done].
      + destruct (Hin (0, node_of a)) as (s & Hsl & Hx).
        { apply elem_of_lookup_imap. exists 0, (node_of a). split; [done|].
          destruct link as [|x [|y link]]; simpl in *; [lia|lia|done]. }
        unfold net_nodes. simpl in Hsl. by rewrite Hsl.
      + destruct (Hin (1, node_of b)) as (s & Hsl & Hx).
        { apply elem_of_lookup_imap. exists 1, (node_of b). split; [done|].
          destruct link as [|x [|y link]]; simpl in *; [lia|lia|]. subst b. by rewrite odds_cons2. }
        unfold net_nodes. simpl in Hsl. by rewrite Hsl.
    - assert (aspects n <> 0%nat) as Ha0 by (intros ?%(wfS_fi0 _ Hw); congruence).
      assert (forall m c nd, wfS m -> sext n m -> length c = S (aspects n) ->
        exists m', add_node m nd (Some (layer_of m c)) = (m', Ok tt) /\ wfS m' /\ sext m m' /\
          nd ∈ net_nodes m' /\ nd ∈ l2nv m' (layer_of n c)) as Hadd.
      { intros m c nd Hwm Hsm Hc.
        destruct (add_node m nd (Some (layer_of m c))) as [m' r'] eqn:E'.
        destruct (add_node_wfS _ _ _ _ _ Hwm E') as (Hw' & Hs' & Hn' & Hl' & _ & _ & Hok1 & Hok2).
        assert (r' = Ok tt) as ->.
        { rewrite (se_asp _ _ Hsm) in Hok1, Hok2.
          destruct (decide (aspects n = 1%nat)) as [H1|H1].
          - destruct c as [|x [|y [|z c]]]; simpl in Hc; try lia.
            eapply (Hok1 H1 y). simpl. by rewrite (se_asp _ _ Hsm), decide_True.
          - destruct c as [|x [|y [|z c]]]; simpl in Hc; try lia.
            apply (Hok2 ltac:(lia) (y :: z :: c)); [done|simpl in *; lia]. }
        exists m'. split_and!; try done.
        rewrite (layer_of_sext _ _ _ Hsm) in Hl'.
        eapply Hl'; [done|done|]. by rewrite (se_fic _ _ Hsm). }
      destruct (Hadd n a (node_of a) Hw (sext_refl n) Hle) as (m & -> & Hwm & Hsm & Hnm & Hlm).
      cbn [obind].
      destruct (Hadd m b (node_of b) Hwm Hsm Hlo) as (m2 & -> & Hwm2 & Hsm2 & Hnm2 & Hlm2).
      exists m2. split_and!; [done|done|by eapply sext_trans|by eapply net_nodes_sext|done|].
      intros _. split; [|done]. by apply (se_l2n _ _ Hsm2). }
  rewrite E1. cbn [obind].
  destruct (ofold _ n1 _) as [n2 r2] eqn:E2.
  destruct (add_layers_fold _ (fun p => (p.1 + 2) / 2) _ _ _ Hw1 E2) as (Hw2 & Hs2 & -> & Hin).
  { intros p (i & y & -> & Hi)%elem_of_lookup_imap. cbn [fst]. apply lookup_lt_Some in Hi.
    rewrite drop_length in Hi. rewrite (se_asp _ _ Hs1).
    assert ((i + 2) / 2 < S (aspects n)); [|lia]. apply Nat.div_lt_upper_bound; lia. }
  assert (sext n n2) as Hs by by eapply sext_trans.
  exists n2. split_and!; [done|done|done| |].
  - apply elem_of_iter_node_layers; [done|]. split.
    + apply Forall2_same_length_lookup. split; [rewrite (wfS_len _ Hw2), (se_asp _ _ Hs); done|].
      intros j x s Hx Hsl. subst a. destruct j as [|j].
      * apply (net_nodes_sext _ _ _ Hs2) in Hna. unfold net_nodes in Hna.
        rewrite Hsl in Hna. simpl in Hna. unfold node_of in Hna.
        rewrite head_lookup, Hx in Hna. done.
      * rewrite lookup_evens in Hx. destruct (Hin (2 * j, x)) as (s' & Hs' & Hx').
        { apply elem_of_lookup_imap. exists (2 * j), x. split; [done|]. rewrite lookup_drop.
          by replace (2 + 2 * j) with (2 * S j) by lia. }
        cbn [fst] in Hs'. replace ((2 * j + 2) / 2) with (S j) in Hs'; [by simplify_eq|].
        replace (2 * j + 2) with (S j * 2) by lia. by rewrite Nat.div_mul.
    + rewrite (se_fic _ _ Hs), (layer_of_sext _ _ _ Hs). intros Hf.
      apply (se_l2n _ _ Hs2). by apply Hlay.
  - apply elem_of_iter_node_layers; [done|]. split.
    + apply Forall2_same_length_lookup. split; [rewrite (wfS_len _ Hw2), (se_asp _ _ Hs); done|].
      intros j x s Hx Hsl. subst b. destruct j as [|j].
      * apply (net_nodes_sext _ _ _ Hs2) in Hnb. unfold net_nodes in Hnb.
        rewrite Hsl in Hnb. simpl in Hnb. unfold node_of in Hnb.
        rewrite head_lookup, Hx in Hnb. done.
      * rewrite lookup_odds in Hx. destruct (Hin (2 * j + 1, x)) as (s' & Hs' & Hx').
        { apply elem_of_lookup_imap. exists (2 * j + 1), x. split; [done|]. rewrite lookup_drop.
          by replace (2 + (2 * j + 1)) with (2 * S j + 1) by lia. }
        cbn [fst] in Hs'. replace ((2 * j + 1 + 2) / 2) with (S j) in Hs'; [by simplify_eq|].
        replace (2 * j + 1 + 2) with (1 + S j * 2) by lia. rewrite Nat.div_add by lia. done.
    + rewrite (se_fic _ _ Hs), (layer_of_sext _ _ _ Hs). intros Hf.
      apply (se_l2n _ _ Hs2). by apply Hlay.
Qed.

(** ** Links *)
Record wfL (n : mlnet) : Prop := {
  wfL_net : wf2 (nett n);
  wfL_rnet : wf2 (rnet n);
  wfL_present : forall a b w, lnk n a b = Some w -> present n a /\ present n b;
  wfL_noe : forall a b, lnk n a b <> Some (noEdge n);
  wfL_sym : directed n = false -> forall a b, lnk n a b = lnk n b a;
  wfL_rev : directed n = true -> forall a b, rlnk n b a = lnk n a b;
  wfL_tot : directed n = true -> forall a b, is_Some (lnk n a b) ->
            is_Some (dget (totdeg n) a) /\ is_Some (dget (totdeg n) b);
  wfL_row : forall a b, is_Some (lnk n a b) -> is_Some (dget (nett n) b);
}.

Lemma wfL_sext n m : wfS n -> wfS m -> sext n m -> wfL n -> wfL m.
Proof.
  intros Hn Hm Hs [].
  assert (forall a b, lnk m a b = lnk n a b) as Hl by (intros; unfold lnk; by rewrite (se_net _ _ Hs)).
  assert (forall a b, rlnk m a b = rlnk n a b) as Hr by (intros; unfold rlnk; by rewrite (se_rnet _ _ Hs)).
  split; rewrite ?(se_net _ _ Hs), ?(se_rnet _ _ Hs), ?(se_dir _ _ Hs), ?(se_tot _ _ Hs); try done.
  - intros a b w. rewrite Hl. intros [??]%wfL_present0. split; by eapply (present_sext n m).
  - intros a b. by rewrite Hl, (se_noe _ _ Hs).
  - intros Hd a b. rewrite !Hl. by apply wfL_sym0.
  - intros Hd a b. rewrite Hl, Hr. by apply wfL_rev0.
  - intros Hd a b. rewrite Hl. by apply wfL_tot0.
  - intros a b. rewrite Hl. by apply wfL_row0.
Qed.

(** [net[a][b]] written touches [x][y]. *)
Definition hit (dir : bool) (a b x y : nl) : Prop :=
  (x = a /\ y = b) \/ (dir = false /\ x = b /\ y = a).
Global Instance hit_dec dir a b x y : Decision (hit dir a b x y).
Proof. unfold hit. apply _. Defined.

Lemma hit_swap a b x y : hit false a b x y <-> hit false a b y x.
Proof. unfold hit. tauto. Qed.

(** Same configuration and same nodes/layers. *)
Record same_struct (n m : mlnet) : Prop := {
  ss_asp : aspects m = aspects n;
  ss_dir : directed m = directed n;
  ss_noe : noEdge m = noEdge n;
  ss_fic : fic m = fic n;
  ss_sl : slices m = slices n;
  ss_l2n : l2n m = l2n n;
  ss_n2l : n2l m = n2l n;
}.
Lemma same_struct_refl n : same_struct n n. Proof. by split. Qed.
Lemma same_struct_trans n m k : same_struct n m -> same_struct m k -> same_struct n k.
Proof. intros [] []. split; congruence. Qed.
Lemma same_struct_wfS n m : same_struct n m -> wfS n -> wfS m.
Proof.
  intros [] []. destruct n, m. simpl in *. subst. by split.
Qed.
Lemma same_struct_inl n m : same_struct n m -> iter_node_layers m = iter_node_layers n.
Proof.
  intros []. unfold iter_node_layers, iter_layers, iter_nodes, net_nodes.
  by rewrite ss_fic0, ss_sl0, ss_asp0, ss_l2n0.
Qed.

(** Lookup after the deletion branch. *)
Definition tot (n : mlnet) (x : nl) : Z := default 0%Z (dget (totdeg n) x).

Lemma tot_add_tot n a k x : tot (tot_add n a k) x = (tot n x + if decide (x = a) then k else 0)%Z.
Proof.
  unfold tot, tot_add. simpl. rewrite dget_dset. destruct (decide (x = a)) as [->|]; simpl; lia.
Qed.
Lemma tot_add_keys n a k x : is_Some (dget (totdeg n) x) -> is_Some (dget (totdeg (tot_add n a k)) x).
Proof. intros H. unfold tot_add. simpl. rewrite dget_dset. destruct (decide (x = a)); [eauto|done]. Qed.
Lemma tot_dec_spec n a : is_Some (dget (totdeg n) a) -> tot_dec n a = (tot_add n a (-1), Ok tt).
Proof. intros [k Hk]. unfold tot_dec, tot_add. rewrite Hk. simpl. done. Qed.

Lemma Zif_opp (P : Prop) `{Decision P} (k : Z) : (if decide P then (- k)%Z else 0%Z) = (- if decide P then k else 0)%Z.
Proof. destruct (decide P); lia. Qed.

Lemma del_link_spec n a b n' r : wfL n -> is_Some (lnk n a b) ->
  del_link n a b = (n', r) ->
  same_struct n n' /\ wf2 (nett n') /\ wf2 (rnet n') /\
  (forall x y, lnk n' x y = if decide (hit (directed n) a b x y) then None else lnk n x y) /\
  (directed n = true -> forall x y, rlnk n' y x = lnk n' x y) /\
  (forall x, is_Some (dget (totdeg n) x) -> is_Some (dget (totdeg n') x)) /\
  (r = if decide (directed n = false /\ a = b) then Err KeyError else Ok tt) /\
  (directed n = true -> forall x, tot n' x =
     (tot n x - (if decide (x = a) then
                   (if decide (a = b \/ lnk n b a = None) then 1 else 0) else 0))%Z).
Proof.
  intros Hw Hab. unfold del_link. destruct (directed n) eqn:Hdir.
  - (* directed *)
    pose proof (wfL_rev _ Hw Hdir) as Hrev.
    pose proof (wfL_tot _ Hw Hdir a b Hab) as [Hta Htb].
    assert (exists n2, (if decide (a = b) then (tot_add n a (-1), Ok tt)
          else
            obind (if negb (in2 (rnet n) a b) then tot_dec n a else (n, Ok tt))
                  (fun n1 _ =>
                     if negb (in2 (rnet n1) b a) then tot_dec n1 b else (n1, Ok tt))) = (n2, Ok tt) /\
        same_struct n n2 /\ nett n2 = nett n /\ rnet n2 = rnet n /\
        (forall x, is_Some (dget (totdeg n) x) -> is_Some (dget (totdeg n2) x)) /\
        forall x, tot n2 x = (tot n x - (if decide (x = a) then
                   (if decide (a = b \/ lnk n b a = None) then 1 else 0) else 0))%Z)
      as (n2 & -> & Hss & Hnet & Hrnet & Hkeys & Htot).
    { destruct (decide (a = b)) as [->|Hne].
      - exists (tot_add n b (-1)). split_and!; try done.
        + by intros x; apply tot_add_keys.
        + intros x. rewrite tot_add_tot. rewrite (decide_True (P := _ \/ _)) by auto.
          destruct (decide (x = b)); lia.
      - assert (in2 (rnet n) b a = true) as Hba.
        { apply in2_true. unfold rlnk in Hrev. by rewrite Hrev. }
        destruct (in2 (rnet n) a b) eqn:Erab; cbn [negb obind].
        + rewrite Hba. cbn [negb]. exists n. split_and!; try done. intros x.
          rewrite (decide_False (P := _ \/ _)); [destruct (decide (x = a)); lia|].
          intros [?|Hn]; [done|]. apply in2_true in Erab. unfold rlnk in Hrev.
          rewrite Hrev, Hn in Erab. by destruct Erab.
        + rewrite tot_dec_spec by done. cbn [obind].
          replace (in2 (rnet (tot_add n a (-1))) b a) with (in2 (rnet n) b a) by done.
          rewrite Hba. cbn [negb]. exists (tot_add n a (-1)). split_and!; try done.
          * by intros x; apply tot_add_keys.
          * intros x. rewrite tot_add_tot. rewrite (decide_True (P := _ \/ _)).
            2:{ right. apply in2_false in Erab. unfold rlnk in Hrev. by rewrite Hrev in Erab. }
            destruct (decide (x = a)); lia. }
    cbn [obind].
    destruct (del2_Some (rnet n2) b a) as (r' & -> & Hr' & Hr'eq).
    { rewrite Hrnet. unfold rlnk in Hrev. by rewrite Hrev. }
    cbn [obind].
    destruct (del2_Some (nett (set_rnet n2 r')) a b) as (t' & -> & Ht' & Ht'eq).
    { simpl. by rewrite Hnet. }
    intros [= <- <-].
    assert (forall x y, lnk (set_nett (set_rnet n2 r') t') x y =
       if decide (hit true a b x y) then None else lnk n x y) as Hlnk.
    { intros x y. unfold lnk. simpl. rewrite Ht'. simpl. rewrite Hnet.
      destruct (decide (x = a /\ y = b)) as [?|?].
      - rewrite decide_True; [done|]. by left.
      - rewrite decide_False; [done|]. intros [?|[? ?]]; [naive_solver|done]. }
    split_and!.
    + destruct Hss. by split.
    + simpl. rewrite Ht'eq. simpl. rewrite Hnet. apply wf2_dset; [apply Hw|].
      apply NoDup_ddel, Hw.
    + simpl. rewrite Hr'eq, Hrnet. apply wf2_dset; [apply Hw|]. apply NoDup_ddel, Hw.
    + done.
    + intros _ x y. rewrite Hlnk. unfold rlnk. simpl. rewrite Hr', Hrnet.
      unfold rlnk in Hrev. rewrite Hrev. unfold hit.
      destruct (decide (y = b /\ x = a)) as [?|?].
      * rewrite decide_True; [done|]. left. naive_solver.
      * rewrite decide_False; [done|]. naive_solver.
    + done.
    + rewrite decide_False; [done|]. by intros [? _].
    + intros _ x. rewrite <- Htot. done.
  - (* undirected *)
    pose proof (wfL_sym _ Hw Hdir) as Hsym.
    destruct (del2_Some (nett n) b a) as (d1 & -> & Hd1 & Hd1eq).
    { unfold lnk in Hsym. by rewrite <- Hsym. }
    cbn [obind].
    assert (wf2 d1) as Hwf1.
    { rewrite Hd1eq. apply wf2_dset; [apply Hw|]. apply NoDup_ddel, Hw. }
    destruct (decide (a = b)) as [->|Hne].
    + rewrite del2_None.
      2:{ simpl. rewrite Hd1. by rewrite decide_True. }
      intros [= <- <-]. split_and!; try done.
      * apply Hw.
      * intros x y. unfold lnk. simpl. rewrite Hd1. unfold hit.
        destruct (decide (x = b /\ y = b)) as [?|?].
        -- rewrite decide_True; [done|]. by left.
        -- rewrite decide_False; [done|]. naive_solver.
      * by rewrite decide_True.
    + destruct (del2_Some (nett (set_nett n d1)) a b) as (d2 & -> & Hd2 & Hd2eq).
      { simpl. rewrite Hd1. rewrite decide_False by naive_solver. done. }
      intros [= <- <-]. split_and!; try done.
      * simpl. rewrite Hd2eq. simpl. apply wf2_dset; [done|]. apply NoDup_ddel, Hwf1.
      * apply Hw.
      * intros x y. unfold lnk. simpl. rewrite Hd2. simpl. rewrite Hd1. unfold hit.
        destruct (decide (x = a /\ y = b)) as [?|?].
        -- rewrite decide_True; [done|]. by left.
        -- destruct (decide (x = b /\ y = a)) as [?|?].
           ++ rewrite decide_True; [done|]. by right.
           ++ rewrite decide_False; [done|]. naive_solver.
      * rewrite decide_False; [done|]. by intros [_ ?].
Qed.

Lemma ensure_row_spec n a :
  same_struct n (ensure_row n a) /\ totdeg (ensure_row n a) = totdeg n /\
  (wf2 (nett n) -> wf2 (nett (ensure_row n a))) /\ (wf2 (rnet n) -> wf2 (rnet (ensure_row n a))) /\
  (forall x, adj (nett (ensure_row n a)) x = adj (nett n) x) /\
  ((directed n = true -> forall x, dget (nett n) x = None -> adj (rnet n) x = []) ->
   forall x, adj (rnet (ensure_row n a)) x = adj (rnet n) x) /\
  (forall x, dget (nett (ensure_row n a)) x = None -> dget (nett n) x = None).
Proof.
  unfold ensure_row. destruct (din (nett n) a) eqn:E.
  - split_and!; try done.
  - apply din_false in E. cbv zeta. destruct (directed n) eqn:Hd; split_and!; try done; simpl.
    + intros H. apply wf2_dset; [done|constructor].
    + intros H. apply wf2_dset; [done|constructor].
    + by apply adj_dset_nil.
    + intros Hrow x. rewrite adj_dset. destruct (decide (x = a)) as [->|]; [|done].
      symmetry. by apply Hrow.
    + intros x. rewrite dget_dset. by destruct (decide (x = a)).
    + intros H. apply wf2_dset; [done|constructor].
    + by apply adj_dset_nil.
    + intros x. rewrite dget_dset. by destruct (decide (x = a)).
Qed.

Lemma lnk_row n a b : wfL n -> is_Some (lnk n a b) -> is_Some (dget (nett n) a).
Proof.
  intros Hw [w Hw']. unfold lnk, adj in Hw'. destruct (dget (nett n) a); [eauto|done].
Qed.

Lemma ins_link_spec n a b w : wfL n ->
  let n' := ins_link n a b w in
  same_struct n n' /\ wf2 (nett n') /\ wf2 (rnet n') /\
  (forall x y, lnk n' x y = if decide (hit (directed n) a b x y) then Some w else lnk n x y) /\
  (directed n = true -> forall x y, rlnk n' y x = lnk n' x y) /\
  (forall x, is_Some (dget (totdeg n) x) -> is_Some (dget (totdeg n') x)) /\
  (directed n = true -> is_Some (dget (totdeg n') a) /\ is_Some (dget (totdeg n') b)) /\
  is_Some (dget (nett n') a) /\ is_Some (dget (nett n') b) /\
  (forall x, is_Some (dget (nett n) x) -> is_Some (dget (nett n') x)) /\
  (directed n = true -> forall x, tot n' x =
     (tot n x + (if decide (lnk n a b = None /\ (a = b \/ lnk n b a = None)) then
                   (if decide (x = a) then 1 else if decide (x = b) then 1 else 0) else 0))%Z).
Proof.
  intros Hw n'.
  destruct (ensure_row_spec n a) as (Hss1 & Ht1 & Hn1 & Hr1 & Hl1 & Hrl1 & Hk1).
  destruct (ensure_row_spec (ensure_row n a) b) as (Hss2 & Ht2 & Hn2 & Hr2 & Hl2 & Hrl2 & Hk2).
  set (m := ensure_row (ensure_row n a) b) in *.
  assert (same_struct n m) as Hss by by eapply same_struct_trans.
  assert (wf2 (nett m)) as Hwn by (apply Hn2, Hn1, Hw).
  assert (wf2 (rnet m)) as Hwr by (apply Hr2, Hr1, Hw).
  assert (forall x y, lnk m x y = lnk n x y) as Hl by (intros; unfold lnk; by rewrite Hl2, Hl1).
  assert (directed n = true -> forall x, dget (nett n) x = None -> adj (rnet n) x = []) as Hrow.
  { intros Hd x Hx. destruct (adj (rnet n) x) as [|[y v] row] eqn:E; [done|]. exfalso.
    assert (rlnk n x y = Some v) as Hv.
    { unfold rlnk. rewrite E. simpl. by rewrite decide_True. }
    rewrite (wfL_rev _ Hw Hd) in Hv.
    destruct (wfL_row _ Hw y x) as [? ?]; [eauto|congruence]. }
  assert (directed n = true -> forall x y, rlnk m x y = lnk n y x) as Hrl.
  { intros Hd x y. rewrite <- (wfL_rev _ Hw Hd). unfold rlnk. rewrite Hrl2, Hrl1; [done|done|].
    intros _ z Hz. rewrite Hrl1 by done. apply Hrow; [done|]. by apply Hk1. }
  assert (totdeg m = totdeg n) as Htm by congruence.
  assert (is_Some (dget (nett m) b)) as Hmb.
  { subst m. unfold ensure_row at 1. destruct (din (nett (ensure_row n a)) b) eqn:E.
    - by apply din_true.
    - cbv zeta. destruct (directed (ensure_row n a)); simpl; rewrite dget_dset, decide_True by done; eauto. }
  assert (is_Some (dget (nett m) a)) as Hma.
  { destruct (dget (nett m) a) as [?|] eqn:E; [eauto|]. apply Hk2 in E.
    unfold ensure_row in E. destruct (din (nett n) a) eqn:E'.
    - apply din_true in E'. rewrite E in E'. by destruct E'.
    - cbv zeta in E. destruct (directed n); simpl in E; rewrite dget_dset, decide_True in E; done. }
  assert (forall x, is_Some (dget (nett n) x) -> is_Some (dget (nett m) x)) as Hmx.
  { intros x [r Hx]. destruct (dget (nett m) x) as [?|] eqn:E; [eauto|].
    apply Hk2, Hk1 in E. congruence. }
  assert (forall d x y v z, is_Some (dget d z) -> is_Some (dget (set2 d x y v) z)) as Hset2key.
  { intros d x y v z Hz. unfold set2. rewrite dget_dset. destruct (decide (z = x)); [eauto|done]. }
  assert (directed m = directed n) as Hdm by apply Hss.
  subst n'. unfold ins_link. fold m. cbv zeta. rewrite Hdm.
  destruct (directed n) eqn:Hdir.
  - (* directed *)
    specialize (Hrl eq_refl). pose proof (wfL_rev _ Hw Hdir) as Hrev.
    set (n3 := if bool_decide (a = b) && negb (in2 (nett m) a b) then _ else _).
    assert (same_struct m n3 /\ nett n3 = nett m /\ rnet n3 = rnet m /\
       (forall x, is_Some (dget (totdeg n) x) -> is_Some (dget (totdeg n3) x)) /\
       (is_Some (dget (totdeg n3) a) /\ is_Some (dget (totdeg n3) b)) /\
       forall x, tot n3 x =
     (tot n x + (if decide (lnk n a b = None /\ (a = b \/ lnk n b a = None)) then
                   (if decide (x = a) then 1 else if decide (x = b) then 1 else 0) else 0))%Z)
      as (Hss3 & Hnet3 & Hrnet3 & Hkey3 & Hkab & Htot3).
    { assert (forall x, tot m x = tot n x) as Htot by (intros; unfold tot; by rewrite Htm).
      assert (in2 (nett m) a b = false <-> lnk n a b = None) as Hab by (rewrite in2_false, <- Hl; done).
      assert (in2 (nett m) b a = false <-> lnk n b a = None) as Hba by (rewrite in2_false, <- Hl; done).
      assert (in2 (rnet m) a b = false <-> lnk n b a = None) as Hrab by (rewrite in2_false, <- Hrl; done).
      assert (in2 (rnet m) b a = false <-> lnk n a b = None) as Hrba by (rewrite in2_false, <- Hrl; done).
      assert (forall k x, is_Some (dget (totdeg (tot_add m k 1)) x) <-> x = k \/ is_Some (dget (totdeg m) x)) as Hka.
      { clear. intros k x. unfold tot_add. simpl. rewrite dget_dset. destruct (decide (x = k)) as [->|Hne].
        - split; [by left|]. intros _. eauto.
        - split; [by right|]. by intros [?|?]. }
      pose proof (wfL_tot _ Hw Hdir) as Hkeys.
      subst n3. destruct (decide (lnk n a b = None)) as [Enab|Enab].
      - apply Hab in Enab as E1. apply Hrba in Enab as E4. rewrite E1. rewrite andb_true_r.
        destruct (decide (a = b)) as [<-|Hne].
        + rewrite bool_decide_true by done. split_and!; try done.
          * intros x Hx. apply Hka. rewrite Htm. by right.
          * apply Hka. by left.
          * apply Hka. by left.
          * intros x. rewrite tot_add_tot, Htot. rewrite (decide_True (P := _ /\ _)) by auto.
            by destruct (decide (x = a)).
        + rewrite bool_decide_false by done. cbn [negb andb].
          destruct (decide (lnk n b a = None)) as [Enba|Enba].
          * apply Hba in Enba as E2. apply Hrab in Enba as E3. rewrite E3. cbn [negb].
            change (nett (tot_add m a 1)) with (nett m). change (rnet (tot_add m a 1)) with (rnet m).
            rewrite E2, E4. cbn [negb andb]. split_and!; try done.
            -- intros x Hx. apply tot_add_keys, Hka. rewrite Htm. by right.
            -- apply tot_add_keys, Hka. by left.
            -- unfold tot_add at 1. simpl. rewrite dget_dset, decide_True by done. eauto.
            -- intros x. rewrite !tot_add_tot, Htot. rewrite (decide_True (P := _ /\ _)) by auto.
               destruct (decide (x = a)), (decide (x = b)); try lia; congruence.
          * assert (in2 (rnet m) a b = true) as E3.
            { destruct (in2 (rnet m) a b); [done|]. by rewrite <- Hrab in Enba. }
            assert (in2 (nett m) b a = true) as E2.
            { destruct (in2 (nett m) b a); [done|]. by rewrite <- Hba in Enba. }
            rewrite E3. cbn [negb]. rewrite E2. cbn [negb andb].
            assert (is_Some (lnk n b a)) as Hsome by (destruct (lnk n b a); [eauto|done]).
            destruct (Hkeys b a Hsome). rewrite Htm. split_and!; try done.
            intros x. rewrite Htot. rewrite (decide_False (P := _ /\ _)); [lia|]. intuition congruence.
      - assert (in2 (nett m) a b = true) as E1.
        { destruct (in2 (nett m) a b); [done|]. by rewrite <- Hab in Enab. }
        assert (in2 (rnet m) b a = true) as E4.
        { destruct (in2 (rnet m) b a); [done|]. by rewrite <- Hrba in Enab. }
        rewrite E1. cbn [negb]. rewrite andb_false_r. cbn [andb].
        rewrite E4. cbn [negb]. rewrite andb_false_r.
        assert (is_Some (lnk n a b)) as Hsome by (destruct (lnk n a b); [eauto|done]).
        destruct (Hkeys a b Hsome). rewrite Htm. split_and!; try done.
        intros x. rewrite Htot. rewrite (decide_False (P := _ /\ _)); [lia|]. intuition congruence. }
    assert (forall x y, lnk (set_nett (set_rnet n3 (set2 (rnet n3) b a w)) (set2 (nett (set_rnet n3 (set2 (rnet n3) b a w))) a b w)) x y =
       if decide (hit true a b x y) then Some w else lnk n x y) as Hlnk.
    { intros x y. unfold lnk at 1. simpl. rewrite dget_set2, Hnet3. unfold hit.
      destruct (decide (x = a /\ y = b)) as [?|?].
      - rewrite decide_True; [done|]. by left.
      - rewrite decide_False; [by apply Hl|]. intros [?|[? ?]]; [intuition congruence|done]. }
    split_and!.
    + assert (same_struct n n3) as [] by by eapply same_struct_trans. by split.
    + simpl. rewrite Hnet3. by apply wf2_set2.
    + simpl. rewrite Hrnet3. by apply wf2_set2.
    + done.
    + intros _ x y. rewrite Hlnk. unfold rlnk. simpl. rewrite dget_set2, Hrnet3.
      fold (rlnk m y x). rewrite Hrl. unfold hit.
      destruct (decide (y = b /\ x = a)) as [?|?].
      * rewrite decide_True; [done|]. left. intuition congruence.
      * rewrite decide_False; [done|]. intuition congruence.
    + done.
    + by intros _.
    + simpl. apply Hset2key. by rewrite Hnet3.
    + simpl. apply Hset2key. by rewrite Hnet3.
    + intros x Hx. simpl. apply Hset2key. rewrite Hnet3. by apply Hmx.
    + intros _ x. rewrite <- Htot3. done.
  - (* undirected *)
    split_and!; try done.
    + destruct Hss. by split.
    + simpl. by do 2 apply wf2_set2.
    + intros x y. unfold lnk at 1. simpl. rewrite !dget_set2. unfold hit.
      destruct (decide (x = a /\ y = b)) as [?|?].
      * rewrite decide_True; [done|]. by left.
      * destruct (decide (x = b /\ y = a)) as [?|?].
        -- rewrite decide_True; [done|]. by right.
        -- rewrite decide_False; [by apply Hl|]. intuition congruence.
    + intros x Hx. simpl. by rewrite Htm.
    + simpl. by do 2 apply Hset2key.
    + simpl. by do 2 apply Hset2key.
    + intros x Hx. simpl. do 2 apply Hset2key. by apply Hmx.
Qed.

Lemma del_link_rows n a b n' r x : del_link n a b = (n', r) ->
  is_Some (dget (nett n) x) -> is_Some (dget (nett n') x).
Proof.
  intros Hd Hx. unfold del_link in Hd.
  assert (forall d a b d', del2 d a b = Some d' -> is_Some (dget d x) -> is_Some (dget d' x)) as Hdel.
  { intros d a' b' d'. unfold del2. destruct (dget d a') as [row|] eqn:E; [|done].
    destruct (dget row b'); [|done]. intros [= <-] H. rewrite dget_dset.
    destruct (decide (x = a')); [eauto|done]. }
  destruct (if directed n then _ else _) as [m [[]|e]] eqn:E; cbn [obind] in Hd.
  - assert (is_Some (dget (nett m) x)) as Hm.
    { destruct (directed n).
      - destruct (if decide (a = b) then _ else _) as [m1 [[]|e1]] eqn:E1; cbn [obind] in E; [|done].
        assert (nett m1 = nett n) as Hm1.
        { destruct (decide (a = b)); [by simplify_eq|].
          destruct (negb (in2 (rnet n) a b)); cbn [obind] in E1.
          - unfold tot_dec in E1 at 1. destruct (dget (totdeg n) a); cbn [obind] in E1; [|done].
            destruct (negb (in2 _ b a)).
            + unfold tot_dec in E1. destruct (dget _ b) in E1; by simplify_eq/=.
            + by simplify_eq/=.
          - destruct (negb (in2 _ b a)).
            + unfold tot_dec in E1. destruct (dget _ b) in E1; by simplify_eq/=.
            + by simplify_eq/=. }
        destruct (del2 (rnet m1) b a); [|done]. injection E as <-. simpl. by rewrite Hm1.
      - destruct (del2 (nett n) b a) eqn:E1; [|done]. injection E as <-. simpl. by eapply Hdel. }
    destruct (del2 (nett m) a b) eqn:E2; injection Hd as <- <-; [|done]. simpl. by eapply Hdel.
  - injection Hd as <- <-. destruct (directed n).
    + destruct (if decide (a = b) then _ else _) as [m1 [[]|e1]] eqn:E1; cbn [obind] in E.
      * assert (nett m1 = nett n) as Hm1.
        { destruct (decide (a = b)); [by simplify_eq|].
          destruct (negb (in2 (rnet n) a b)); cbn [obind] in E1.
          - unfold tot_dec in E1 at 1. destruct (dget (totdeg n) a); cbn [obind] in E1; [|done].
            destruct (negb (in2 _ b a)).
            + unfold tot_dec in E1. destruct (dget _ b) in E1; by simplify_eq/=.
            + by simplify_eq/=.
          - destruct (negb (in2 _ b a)).
            + unfold tot_dec in E1. destruct (dget _ b) in E1; by simplify_eq/=.
            + by simplify_eq/=. }
        destruct (del2 (rnet m1) b a); [done|]. injection E as <- <-. by rewrite Hm1.
      * injection E as <- <-. destruct (decide (a = b)); [done|].
        destruct (negb (in2 (rnet n) a b)); cbn [obind] in E1.
        -- unfold tot_dec in E1 at 1. destruct (dget (totdeg n) a); cbn [obind] in E1; [|by simplify_eq].
           destruct (negb (in2 _ b a)).
           ++ unfold tot_dec in E1. destruct (dget _ b) in E1; by simplify_eq/=.
           ++ by simplify_eq/=.
        -- destruct (negb (in2 _ b a)).
           ++ unfold tot_dec in E1. destruct (dget _ b) in E1; by simplify_eq/=.
           ++ by simplify_eq/=.
    + destruct (del2 (nett n) b a) eqn:E1; [done|]. by injection E as <- <-.
Qed.

(** Change of the total degree counter caused by one write. *)
Definition tot_change (n : mlnet) (a b : nl) (w : Z) (x : nl) : Z :=
  if decide (w = noEdge n) then
    (if decide (is_Some (lnk n a b) /\ x = a /\ (a = b \/ lnk n b a = None)) then -1 else 0)%Z
  else
    (if decide (lnk n a b = None /\ (a = b \/ lnk n b a = None) /\ (x = a \/ x = b)) then 1 else 0)%Z.

Lemma set_link_spec n a b w n' r :
  wfS n -> wfL n -> present n a -> present n b ->
  set_link n (interleave a b) w = (n', r) ->
  same_struct n n' /\ wfL n' /\
  (forall x y, lnk n' x y = if decide (hit (directed n) a b x y)
                            then (if decide (w = noEdge n) then None else Some w) else lnk n x y) /\
  (r = if decide (w = noEdge n /\ directed n = false /\ a = b /\ is_Some (lnk n a b))
       then Err KeyError else Ok tt) /\
  (directed n = true -> forall x, tot n' x = (tot n x + tot_change n a b w x)%Z).
Proof.
  intros HS HL Ha Hb.
  assert (length a = length b) as Hlen.
  { by rewrite (present_length _ _ HS Ha), (present_length _ _ HS Hb). }
  unfold set_link. rewrite link_to_nodes_interleave by done.
  unfold tot_change. destruct (decide (w = noEdge n)) as [->|Hw].
  - (* deletion *)
    assert (lnk n a b = match dget (nett n) a with Some row => dget row b | None => None end) as Hlab.
    { unfold lnk, adj. by destruct (dget (nett n) a). }
    destruct (decide (is_Some (lnk n a b))) as [Hs|Hns].
    + replace (match dget (nett n) a with Some row => if din row b then del_link n a b else (n, Ok tt) | None => (n, Ok tt) end)
        with (del_link n a b).
      2:{ rewrite Hlab in Hs. destruct (dget (nett n) a) as [row|]; [|by destruct Hs].
          apply din_true in Hs. by rewrite Hs. }
      intros E. pose proof (fun x => del_link_rows n a b n' r x E) as Hrows.
      destruct (del_link_spec _ _ _ _ _ HL Hs E) as (Hss & Hwn & Hwr & Hl & Hr & Hk & Hres & Ht).
      split_and!; [done| |done| |].
      * split; try done.
        -- intros x y v. rewrite Hl. gdec; [done|]. intros Hv.
           rewrite (same_struct_inl _ _ Hss). by eapply wfL_present.
        -- intros x y. rewrite Hl, (ss_noe _ _ Hss). gdec; [done|]. by apply wfL_noe.
        -- rewrite (ss_dir _ _ Hss). intros Hd x y. rewrite !Hl, (wfL_sym _ HL Hd x y).
           rewrite Hd. by rewrite (decide_ext _ _ _ _ (hit_swap a b x y)).
        -- rewrite (ss_dir _ _ Hss). done.
        -- rewrite (ss_dir _ _ Hss). intros Hd x y. rewrite Hl. gdec; [by intros [? ?]|].
           intros Hsm. destruct (wfL_tot _ HL Hd x y Hsm). auto.
        -- intros x y. rewrite Hl. gdec; [by intros [? ?]|].
           intros Hsm. apply Hrows. by eapply wfL_row.
      * rewrite Hres. destruct (decide (_ /\ _)), (decide (_ /\ _)); intuition congruence.
      * intros Hd x. rewrite (Ht Hd). destruct (decide (x = a)) as [->|Hx].
        -- destruct (decide (a = b \/ _)).
           ++ rewrite decide_True; [lia|]. intuition congruence.
           ++ rewrite decide_False; [lia|]. intuition congruence.
        -- rewrite decide_False; [lia|]. intuition congruence.
    + replace (match dget (nett n) a with Some row => if din row b then del_link n a b else (n, Ok tt) | None => (n, Ok tt) end)
        with ((n, Ok tt) : out mlnet unit).
      2:{ rewrite Hlab in Hns. destruct (dget (nett n) a) as [row|]; [|done].
          destruct (din row b) eqn:E; [|done]. apply din_true in E. done. }
      intros [= <- <-].
      assert (lnk n a b = None) as Hn by (destruct (lnk n a b); [exfalso; eauto|done]).
      split_and!; [apply same_struct_refl|done| | |].
      * intros x y. destruct (decide (hit (directed n) a b x y)) as [[[-> ->]|(Hd & -> & ->)]|]; [done| |done].
        by rewrite <- (wfL_sym _ HL Hd).
      * rewrite decide_False; [done|]. intuition congruence.
      * intros Hd x. rewrite decide_False; [lia|]. intuition congruence.
  - (* insertion *)
    intros [= <- <-].
    destruct (ins_link_spec n a b w HL) as (Hss & Hwn & Hwr & Hl & Hr & Hk & Hkab & Hra & Hrb & Hrx & Ht).
    split_and!; [done| |done| |].
    + split; try done.
      * intros x y v. rewrite Hl, (same_struct_inl _ _ Hss).
        gdec as [[[-> ->]|(? & -> & ->)]|]; [done|done|].
        by apply wfL_present.
      * intros x y. rewrite Hl, (ss_noe _ _ Hss). gdec; [by intros [= ?]|]. by apply wfL_noe.
      * rewrite (ss_dir _ _ Hss). intros Hd x y. rewrite !Hl, (wfL_sym _ HL Hd x y).
        rewrite Hd. by rewrite (decide_ext _ _ _ _ (hit_swap a b x y)).
      * rewrite (ss_dir _ _ Hss). done.
      * rewrite (ss_dir _ _ Hss). intros Hd x y. rewrite Hl.
        gdec as [[[-> ->]|(? & -> & ->)]|].
        -- intros _. by apply Hkab.
        -- congruence.
        -- intros Hsm. destruct (wfL_tot _ HL Hd x y Hsm). auto.
      * intros x y. rewrite Hl. gdec as [[[-> ->]|(? & -> & ->)]|]; [done|done|].
        intros Hsm. apply Hrx. by eapply wfL_row.
    + rewrite decide_False; [done|]. intuition congruence.
    + intros Hd x. rewrite (Ht Hd).
      destruct (decide (lnk n a b = None /\ (a = b \/ lnk n b a = None))) as [H1|H1].
      * destruct (decide (x = a)) as [->|Hxa].
        -- rewrite decide_True; [lia|]. intuition congruence.
        -- destruct (decide (x = b)) as [->|Hxb].
           ++ rewrite decide_True; [lia|]. intuition congruence.
           ++ rewrite decide_False; [lia|]. intuition congruence.
      * rewrite decide_False; [lia|]. intuition congruence.
Qed.
