(** * The acceptance tests of reqs.py. *)
From stdpp Require Import prelude strings sorting relations.
From Verif Require Import PropsNet TransFacts2 PropsTrans Samp SampSpec SampFacts.
Local Open Scope nat_scope.

(** ** connectivity *)
Section bfs.
Context (g : mlnet) (Hg : good g) (Ha : aspects g = 0) (Hd : directed g = false).
Definition glk (x y : name) : Prop := linked g [x] [y].
Lemma nbr_iff x y : y ∈ (node_of <$> iter_total g [x] None) <-> glk x y.
Proof.
  rewrite elem_of_list_fmap. destruct (iter_total_exact g [x] None Hg I) as [_ H]. unfold glk. split.
  - intros (b & -> & Hb). apply H in Hb as [Hb _]. assert (length b = 1) as Hl.
    { destruct Hb as [(_ & Hb & _)|(Hb & _)]; by rewrite Ha in Hb. }
    destruct b as [|y [|? ?]]; try done. simpl. destruct Hb as [Hb|Hb]; [done|]. rewrite linked_rd in * by done. by rewrite rd_sym.
  - intros Hl. exists [y]. split; [done|]. apply H. split; [by left|done].
Qed.
Lemma glk_nodes x y : glk x y -> x ∈ net_nodes g /\ y ∈ net_nodes g.
Proof.
  unfold glk. intros Hl. apply linked_lnk in Hl; [|done]. apply (lnk_slices g) in Hl as (_ & _ & H1 & H2); [|done].
  rewrite !net_nodes_sl. split; [by apply (H1 0)|by apply (H2 0)].
Qed.
Definition bstep (s : list name) : list name := remove_dups (s ++ (s ≫= fun x => node_of <$> iter_total g [x] None)).
Lemma elem_of_bstep s y : y ∈ bstep s <-> y ∈ s \/ exists x, x ∈ s /\ glk x y.
Proof.
  unfold bstep. rewrite elem_of_remove_dups, elem_of_app, elem_of_list_bind. setoid_rewrite nbr_iff. naive_solver.
Qed.
Lemma bfs_S k s : bfs g (S k) s = bfs g k (bstep s). Proof. done. Qed.
Lemma bfs_sound k s y : y ∈ bfs g k s -> exists x, x ∈ s /\ rtc glk x y.
Proof.
  revert s. induction k as [|k IH]; intros s Hy; [eexists; split; [done|constructor]|]. rewrite bfs_S in Hy. apply IH in Hy as (x & Hx & Hr).
  apply elem_of_bstep in Hx as [Hx|(z & Hz & Hl)]; [eauto|]. exists z. split; [done|]. by eapply rtc_l.
Qed.
Definition closed (s : list name) : Prop := forall x y, x ∈ s -> glk x y -> y ∈ s.
Lemma bfs_mono k s y : y ∈ s -> y ∈ bfs g k s.
Proof. revert s. induction k as [|k IH]; intros s Hy; [done|]. rewrite bfs_S. apply IH. apply elem_of_bstep. by left. Qed.
Lemma bfs_nodup k s : NoDup s -> NoDup (bfs g k s).
Proof. revert s. induction k as [|k IH]; intros s Hs; [done|]. rewrite bfs_S. apply IH. apply NoDup_remove_dups. Qed.
Lemma closed_bfs k s : closed s -> closed (bfs g k s).
Proof.
  revert s. induction k as [|k IH]; intros s Hs; [done|]. rewrite bfs_S. apply IH. intros x y Hx Hl. apply elem_of_bstep. left.
  apply elem_of_bstep in Hx as [Hx|(z & Hz & Hl')]; eauto.
Qed.
Lemma bfs_grow k s : NoDup s -> closed (bfs g k s) \/ length s + k <= length (bfs g k s).
Proof.
  revert s. induction k as [|k IH]; intros s Hs; [right; simpl; lia|]. rewrite bfs_S.
  destruct (decide (Forall (fun y => y ∈ s) (bstep s))) as [Hc|Hc].
  - left. apply closed_bfs. rewrite Forall_forall in Hc. intros x y Hx Hl. apply elem_of_bstep in Hx as [Hx|(z & Hz & Hl')].
    + apply elem_of_bstep. right. eauto.
    + apply elem_of_bstep. right. exists x. split; [|done]. apply Hc. apply elem_of_bstep. right. eauto.
  - assert (length s < length (bstep s)) as Hlt.
    { destruct (decide (length s < length (bstep s))) as [|Hn]; [done|]. exfalso. apply Hc.
      assert (s ⊆+ bstep s) as Hsub. { apply NoDup_submseteq; [done|]. intros x Hx. apply elem_of_bstep. by left. }
      apply Forall_forall. intros y Hy. assert (s ≡ₚ bstep s) as Hp by (apply submseteq_Permutation_length_le; [lia|done]). by rewrite Hp. }
    destruct (IH (bstep s)) as [H|H]; [apply NoDup_remove_dups|by left|right; lia].
Qed.
Lemma closed_rtc s x y : closed s -> x ∈ s -> rtc glk x y -> y ∈ s.
Proof. intros Hc Hx Hr. induction Hr as [|x y z Hl Hr IH]; [done|]. apply IH. by apply (Hc x). Qed.
Lemma rtc_nodes x y : x ∈ net_nodes g -> rtc glk x y -> y ∈ net_nodes g.
Proof. apply closed_rtc. intros a b _ Hl. by apply (glk_nodes a b). Qed.
Lemma bfs_exact x : x ∈ net_nodes g -> NoDup (net_nodes g) -> lists_exactly (bfs g (length (net_nodes g)) [x]) (fun y => rtc glk x y).
Proof.
  intros Hx Hn. assert (NoDup (bfs g (length (net_nodes g)) [x])) as Hnd by apply bfs_nodup, NoDup_singleton.
  assert (forall y, y ∈ bfs g (length (net_nodes g)) [x] -> rtc glk x y) as Hs.
  { intros y Hy. apply bfs_sound in Hy as (z & ->%elem_of_list_singleton & Hr). done. }
  split; [done|]. intros y. split; [by apply Hs|]. intros Hr.
  destruct (bfs_grow (length (net_nodes g)) [x]) as [Hc|Hl]; [apply NoDup_singleton| |].
  - assert (x ∈ bfs g (length (net_nodes g)) [x]) as H0 by (apply bfs_mono; by left).
    by apply (closed_rtc _ x).
  - exfalso. assert (length (bfs g (length (net_nodes g)) [x]) <= length (net_nodes g)); [|simpl in Hl; lia].
    apply submseteq_length, NoDup_submseteq; [done|]. intros z Hz%Hs. by apply (rtc_nodes x).
Qed.
Lemma nx_connected_spec : NoDup (net_nodes g) -> exists c, nx_connected g = Ok c /\
  (c = Some true <-> net_nodes g <> [] /\ forall x y, x ∈ net_nodes g -> y ∈ net_nodes g -> rtc glk x y).
Proof.
  intros Hn. unfold nx_connected. rewrite Hd. destruct (net_nodes g) as [|x ns] eqn:E.
  - exists None. split; [done|]. split; [done|]. intros [? _]. done.
  - eexists. split; [done|]. rewrite <- E in *. assert (x ∈ net_nodes g) as Hx by (rewrite E; left).
    destruct (bfs_exact x Hx Hn) as [Hnd Hb].
    assert (forall y, y ∈ bfs g (length (net_nodes g)) [x] -> y ∈ net_nodes g) as Hsub.
    { intros y Hy%Hb. by apply (rtc_nodes x). }
    assert (forall a b, rtc glk a b -> rtc glk b a) as Hsym.
    { intros a b Hr. induction Hr as [|a b c Hl Hr IH]; [constructor|]. eapply rtc_r; [done|]. unfold glk in *. rewrite linked_rd in * by done. by rewrite rd_sym. }
    split.
    + intros [= Hb'%bool_decide_eq_true]. split; [by rewrite E|].
      assert (bfs g (length (net_nodes g)) [x] ≡ₚ net_nodes g) as Hp.
      { apply submseteq_Permutation_length_le; [lia|]. by apply NoDup_submseteq. }
      intros a b Ha' Hb''. rewrite <- Hp in Ha', Hb''. apply Hb in Ha', Hb''. etrans; [by apply Hsym|done].
    + intros [_ Hall]. f_equal. apply bool_decide_eq_true. apply Permutation_length, NoDup_Permutation; [done..|]. intros y. rewrite Hb. split.
      * intros Hr. apply Hsub, Hb. done.
      * by apply Hall.
Qed.
End bfs.

(** ** the induced subgraph *)
Lemma sel_nl2 A B a : length a = 2 -> sel_nl [Some A; Some B] a <-> exists x l, a = [x; l] /\ x ∈ A /\ l ∈ B.
Proof.
  intros Hl. destruct a as [|x [|l [|? ?]]]; try done. split.
  - intros H. exists x, l. split; [done|]. split; [apply (H 0 x (Some A)); done|apply (H 1 l (Some B)); done].
  - intros (x' & l' & [= <- <-] & Hx & Hl') k y o Hk Ho. destruct k as [|[|k]]; simpl in Hk, Ho; [| |by rewrite lookup_nil in Hk].
    + by injection Hk as <-; injection Ho as <-.
    + by injection Hk as <-; injection Ho as <-.
Qed.
Lemma induced_spec str n A B : reachable n -> aspects n = 1 -> directed n = false ->
  (forall a b, a ∈ iter_node_layers n -> b ∈ iter_node_layers n -> str a = str b -> a = b) ->
  exists ind g c, subnet n [Some A; Some B] false = Ok ind /\ underlying str (src_of ind) = Ok g /\ nx_connected g = Ok c /\
    (c = Some true <-> sel_connected n A B) /\ lists_exactly (iter_node_layers ind) (sel_in n A B).
Proof.
  intros Hr Ha Hd Hinj. destruct (C25_subnet n [Some A; Some B] Hr) as (ind & E1 & Hri & Hai & (Hci1 & Hci2 & _) & Hrd & _ & _ & Hnl & _); [by rewrite Ha|].
  pose proof (reachable_good _ Hr) as Hg. pose proof (reachable_good _ Hri) as Hgi.
  assert (forall a, a ∈ iter_node_layers ind <-> sel_in n A B a) as Hsel.
  { intros a. rewrite Hnl. unfold sel_in. split; intros [H1 H2]; (split; [done|]); apply (sel_nl2 A B a); try done; rewrite (present_len n a) by done; by rewrite Ha. }
  destruct (C29_underlying_graph ind str Hri) as (g & E2 & Hrg & Hag & Hdg & Hng & Hel & Hrdg & _).
  { intros a b H1 H2. apply Hinj; [by apply Hnl in H1 as [? _]|by apply Hnl in H2 as [? _]]. }
  pose proof (reachable_good _ Hrg) as Hgg.
  assert (directed g = false) as Hdg' by congruence.
  assert (NoDup (net_nodes g)) as Hnd.
  { unfold net_nodes. destruct (slices g !! 0) as [s|] eqn:Es; simpl; [|constructor]. by eapply (Forall_lookup_1 _ _ _ _ (wfS_nodup _ (proj1 Hgg))). }
  assert (forall a b, sel_in n A B a -> sel_in n A B b -> glk g (str a) (str b) <-> linked n a b) as Hlk.
  { intros a b H1 H2. assert (length a = 2 /\ length b = 2) as [Hla Hlb]. { destruct H1 as [_ (? & ? & -> & _)]. destruct H2 as [_ (? & ? & -> & _)]. done. }
    assert (sel_nl [Some A; Some B] a) by (apply sel_nl2; [done|apply H1]). assert (sel_nl [Some A; Some B] b) by (apply sel_nl2; [done|apply H2]).
    unfold glk, linked. rewrite Hag, Ha, Hng, Hci1. setoid_rewrite (Hrdg a b); [|by apply Hsel..]. setoid_rewrite Hrd; [|done..]. naive_solver. }
  assert (forall x, x ∈ net_nodes g <-> exists a, sel_in n A B a /\ x = str a) as Hno.
  { intros x. rewrite net_nodes_sl, <- has_elem_sl, Hel. setoid_rewrite Hsel. done. }
  destruct (nx_connected_spec g Hgg Hag Hdg' Hnd) as (c & E3 & Hc). exists ind, g, c. do 3 (split; [done|]). split; [|split].
  - rewrite Hc. split.
    + intros [Hne Hall]. split.
      * destruct (net_nodes g) as [|x xs] eqn:E; [done|]. assert (x ∈ x :: xs) as Hx by left. apply Hno in Hx as (a & Hx & _). eauto.
      * intros a b H1 H2.
        assert (forall x y, rtc (glk g) x y -> forall a, sel_in n A B a -> x = str a -> exists b, sel_in n A B b /\ y = str b /\ rtc (sel_linked n A B) a b) as Hgen.
        { intros x y Hrt. induction Hrt as [x|x y z Hl Hrt IH]; intros a' Ha' ->; [exists a'; split; [done|]; split; [done|constructor]|].
          assert (y ∈ net_nodes g) as Hy by (by apply (glk_nodes g Hgg (str a') y)). apply Hno in Hy as (b' & Hb' & ->).
          destruct (IH b' Hb' eq_refl) as (b'' & Hb'' & -> & Hr'). exists b''. split; [done|]. split; [done|]. eapply rtc_l; [|exact Hr'].
          split; [done|]. split; [done|]. by apply Hlk. }
        assert (rtc (glk g) (str a) (str b)) as Hab by (apply Hall; apply Hno; eauto).
        destruct (Hgen _ _ Hab a H1 eq_refl) as (b' & Hb' & Heq & Hr'). apply Hinj in Heq as ->; [done|by apply H2|by apply Hb'].
    + intros [[a0 Ha0] Hall]. split.
      * intros E. assert (str a0 ∈ net_nodes g) as Hx by (apply Hno; eauto). rewrite E in Hx. by apply elem_of_nil in Hx.
      * intros x y (a & H1 & ->)%Hno (b & H2 & ->)%Hno. pose proof (Hall a b H1 H2) as Hr'. clear H1 H2.
        induction Hr' as [|a b c' (H1 & H2 & Hl) Hr' IH]; [constructor|]. eapply rtc_l; [|exact IH]. by apply Hlk.
  - apply NoDup_iter_node_layers, Hgi.
  - done.
Qed.
Lemma no_empty_spec n nls A B : (forall a, a ∈ nls <-> sel_in n A B a) -> no_empty nls A B = true <-> sel_full n A B.
Proof.
  intros Hn. unfold no_empty, sel_full. rewrite andb_true_iff, !forallb_forall. setoid_rewrite existsb_exists.
  assert (forall x l, x ∈ A -> l ∈ B -> [x; l] ∈ nls <-> [x; l] ∈ iter_node_layers n) as H1.
  { intros x l Hx Hl. rewrite Hn. unfold sel_in. naive_solver. }
  setoid_rewrite <- elem_of_list_In. setoid_rewrite bool_decide_eq_true. split; intros [H2 H3]; split; intros y Hy.
  - destruct (H3 y Hy) as (z & Hz & Hm). exists z. split; [done|]. by apply H1.
  - destruct (H2 y Hy) as (z & Hz & Hm). exists z. split; [done|]. by apply H1.
  - destruct (H3 y Hy) as (z & Hz & Hm). exists z. split; [done|]. by apply H1.
  - destruct (H2 y Hy) as (z & Hz & Hm). exists z. split; [done|]. by apply H1.
Qed.

Lemma relaxed_check_spec str n A B : reachable n -> aspects n = 1 -> directed n = false ->
  (forall a b, a ∈ iter_node_layers n -> b ∈ iter_node_layers n -> str a = str b -> a = b) ->
  exists b, relaxed_check str n A B = Ok b /\ (b = true <-> sel_connected n A B /\ sel_full n A B).
Proof.
  intros Hr Ha Hd Hinj. destruct (induced_spec str n A B Hr Ha Hd Hinj) as (ind & g & c & E1 & E2 & E3 & Hc & [_ Hnl]).
  unfold relaxed_check. rewrite E1. cbn [rbind]. rewrite E2. cbn [rbind]. rewrite E3. cbn [rbind].
  destruct c as [[|]|].
  - eexists. split; [done|]. rewrite (no_empty_spec n _ A B Hnl). tauto.
  - exists false. split; [done|]. split; [done|]. intros [H _]. apply Hc in H. done.
  - exists false. split; [done|]. split; [done|]. intros [H _]. apply Hc in H. done.
Qed.

(** ** role assignments *)
Lemma layer_nodes_spec (nls : list nl) : NoDup nls -> (forall a, a ∈ nls -> length a = 2) ->
  NoDup (dkeys (layer_nodes nls)) /\
  (forall l, l ∈ dkeys (layer_nodes nls) <-> exists x, [x; l] ∈ nls) /\
  (forall l, lists_exactly (default [] (dget (layer_nodes nls) l)) (fun x => [x; l] ∈ nls)).
Proof.
  unfold layer_nodes. induction nls as [|a nls IH] using rev_ind; intros Hnd Hlen.
  - split; [constructor|]. split.
    + intros l. split; [by intros ?%elem_of_nil|]. by intros (x & ?%elem_of_nil).
    + intros l. split; [constructor|]. intros x. split; by intros ?%elem_of_nil.
  - apply NoDup_app in Hnd as (Hnd & Hdis & _). destruct IH as (IH1 & IH2 & IH3); [done|intros b Hb; apply Hlen, elem_of_app; by left|].
    rewrite foldl_app. cbn [foldl]. set (d := foldl _ [] nls) in *.
    assert (length a = 2) as Hla by (apply Hlen, elem_of_app; right; by left). destruct a as [|x [|l [|? ?]]]; try done.
    assert ([x; l] ∉ nls) as Hx. { intros H. apply (Hdis _ H). by left. }
    split; [by apply NoDup_dset|]. split.
    + intros l'. rewrite elem_of_dkeys_dset, IH2. setoid_rewrite elem_of_app. setoid_rewrite elem_of_list_singleton. split.
      * intros [->|(y & Hy)]; [exists x; by right|exists y; by left].
      * intros (y & [Hy|[= -> ->]]); [right; eauto|by left].
    + intros l'. destruct (decide (l' = l)) as [->|Hne].
      * rewrite dget_dset_eq. simpl. destruct (IH3 l) as [H1 H2]. split.
        -- apply NoDup_app. split; [done|]. split; [|apply NoDup_singleton]. intros y Hy ->%elem_of_list_singleton. by apply H2 in Hy.
        -- intros y. rewrite elem_of_app, H2, elem_of_app, !elem_of_list_singleton. naive_solver.
      * rewrite dget_dset_ne by done. destruct (IH3 l') as [H1 H2]. split; [done|]. intros y. rewrite H2, elem_of_app, elem_of_list_singleton. naive_solver.
Qed.
Lemma common_spec (d : dict name (list name)) c : c <> [] -> (forall l, NoDup (default [] (dget d l))) ->
  lists_exactly (common d c) (fun x => forall l, l ∈ c -> x ∈ default [] (dget d l)).
Proof.
  intros Hc Hd. unfold common. destruct c as [|l0 c]; [done|]. cbn [head default].
  assert (forall c s, NoDup s -> lists_exactly (foldl (fun s l => filter (fun x => x ∈ default [] (dget d l)) s) s c)
    (fun x => x ∈ s /\ forall l, l ∈ c -> x ∈ default [] (dget d l))) as Hgen.
  { clear. induction c as [|l c IH]; intros s Hs; cbn [foldl].
    - split; [done|]. intros x. split; [intros H; split; [done|]; by intros ? ?%elem_of_nil|tauto].
    - destruct (IH (filter (fun x => x ∈ default [] (dget d l)) s)) as [H1 H2]; [by apply NoDup_filter|]. split; [done|].
      intros x. rewrite H2, elem_of_list_filter. setoid_rewrite elem_of_cons. naive_solver. }
  destruct (Hgen (l0 :: c) (remove_dups (default [] (dget d l0)))) as [H1 H2]; [apply NoDup_remove_dups|]. split; [done|].
  intros x. simpl in *. rewrite H2, elem_of_remove_dups. split; [tauto|]. intros H. split; [apply H; left|done].
Qed.
Lemma rforall_spec {A} (f : A -> res bool) (P : A -> Prop) l : (forall x, x ∈ l -> exists b, f x = Ok b /\ (b = true <-> P x)) ->
  exists b, rforall f l = Ok b /\ (b = true <-> forall x, x ∈ l -> P x).
Proof.
  induction l as [|x l IH]; intros Hf; [exists true; split; [done|]; split; [by intros _ ? ?%elem_of_nil|done]|].
  destruct (Hf x) as (b & E & Hb); [left|]. cbn [rforall]. rewrite E. destruct b.
  - destruct IH as (b' & E' & Hb'); [intros y Hy; apply Hf; by right|]. exists b'. split; [done|]. rewrite Hb'. setoid_rewrite elem_of_cons. naive_solver.
  - exists false. split; [done|]. split; [done|]. intros H. apply Hb, H. left.
Qed.
Lemma rexists_spec {A} (f : A -> res bool) (P : A -> Prop) l : (forall x, x ∈ l -> exists b, f x = Ok b /\ (b = true <-> P x)) ->
  exists b, rexists f l = Ok b /\ (b = true <-> exists x, x ∈ l /\ P x).
Proof.
  induction l as [|x l IH]; intros Hf; [exists false; split; [done|]; split; [done|by intros (? & ?%elem_of_nil & _)]|].
  destruct (Hf x) as (b & E & Hb); [left|]. cbn [rexists]. rewrite E. destruct b.
  - exists true. split; [done|]. split; [|done]. intros _. exists x. split; [left|tauto].
  - destruct IH as (b' & E' & Hb'); [intros y Hy; apply Hf; by right|]. exists b'. split; [done|]. rewrite Hb'. setoid_rewrite elem_of_cons. split.
    + intros (y & Hy & HP). eauto.
    + intros (y & [->|Hy] & HP); [apply Hb in HP; done|eauto].
Qed.
Lemma d_isect_spec k inters : k <> 0 -> length (role_sets (seq 0 k)) <= length inters ->
  exists di, d_isect k inters = Ok di /\ forall j c, role_sets (seq 0 k) !! j = Some c -> dget di c = inters !! j.
Proof.
  intros Hk Hl. unfold d_isect. set (f := fun (s : dict (list nat) (option Z) * nat) c => _).
  assert (forall cs pre d, NoDup (pre ++ cs) -> length pre + length cs <= length inters ->
    (forall j c, pre !! j = Some c -> dget d c = inters !! j) ->
    exists d', rfold f (d, length pre) cs = Ok (d', length pre + length cs) /\ forall j c, (pre ++ cs) !! j = Some c -> dget d' c = inters !! j) as Hgen.
  { induction cs as [|c cs IH]; intros pre d Hnd Hle Hpre.
    - exists d. cbn [rfold]. rewrite Nat.add_0_r, app_nil_r. done.
    - cbn [rfold]. unfold f at 1. cbn [fst snd]. destruct (lookup_lt_is_Some_2 inters (length pre)) as [z Hz]; [simpl in Hle; lia|]. rewrite Hz.
      destruct (IH (pre ++ [c]) (dset d c z)) as (d' & E & Hd').
      + by rewrite <- app_assoc.
      + rewrite app_length. simpl in *. lia.
      + intros j c' Hj. destruct (decide (j = length pre)) as [->|Hne].
        * rewrite lookup_app_r, Nat.sub_diag in Hj by lia. injection Hj as <-. by rewrite dget_dset_eq.
        * assert (j < length pre) as Hlt. { apply lookup_lt_Some in Hj as Hlt. rewrite app_length in Hlt. simpl in Hlt. lia. }
          rewrite lookup_app_l in Hj by done. rewrite dget_dset_ne; [by apply Hpre|]. intros ->.
          apply NoDup_app in Hnd as (_ & Hdis & _). apply (Hdis c); [by eapply elem_of_list_lookup_2|left].
      + rewrite app_length in E. cbn [length] in *. exists d'. replace (S (length pre)) with (length pre + 1) by lia. rewrite E. rewrite <- app_assoc in Hd'. split; [|done]. do 2 f_equal. lia. }
  destruct (Hgen (role_sets (seq 0 k)) [] []) as (di & E & Hdi); [apply NoDup_role_sets, NoDup_seq|done|by intros ? ? ?|].
  simpl in E. rewrite E. cbn [rbind fst]. eauto.
Qed.
Lemma index_of_lookup perm i l : NoDup perm -> perm !! i = Some l -> index_of l perm = i.
Proof.
  intros Hnd Hi. unfold index_of. destruct (list_find (fun x => x = l) perm) as [[j y]|] eqn:E.
  - apply list_find_Some in E as (H1 & -> & _). simpl. by eapply NoDup_lookup.
  - apply list_find_None in E. exfalso. rewrite Forall_forall in E. apply (E l); [by eapply elem_of_list_lookup_2|done].
Qed.
Lemma seq_sublist_sorted (r : list nat) a k : sublist r (seq a k) -> StronglySorted le r.
Proof.
  revert a r. induction k as [|k IH]; intros a r H; [apply sublist_nil_r in H as ->; constructor|]. simpl in H.
  apply sublist_cons_r in H as [H|(r' & -> & H)]; [by eapply IH|]. constructor; [by eapply IH|]. apply Forall_forall. intros y Hy.
  eapply sublist_elem in Hy; [|done]. apply elem_of_seq in Hy. lia.
Qed.
Lemma merge_sorted (r : list nat) : StronglySorted le r -> merge_sort le r = r.
Proof.
  intros Hs. apply (StronglySorted_unique le).
  - apply StronglySorted_merge_sort; apply _.
  - done.
  - apply merge_sort_Permutation.
Qed.
(** The roles of a list, looked up by position. *)
Lemma roles_as_map {A} `{Inhabited A} (l : list A) : l = (fun i => l !!! i) <$> seq 0 (length l).
Proof.
  apply list_eq. intros i. rewrite list_lookup_fmap. destruct (decide (i < length l)) as [Hlt|Hge].
  - rewrite lookup_seq_lt by done. simpl. by apply list_lookup_lookup_total_lt.
  - rewrite lookup_ge_None_2, lookup_seq_ge by lia. done.
Qed.
Lemma combos_split {A} (l : list A) : l <> [] -> (seq 1 (length l) ≫= fun ii => combs ii l) = combs 1 l ++ role_sets l.
Proof.
  intros Hl. unfold role_sets. destruct l as [|x l]; [done|]. cbn [length]. rewrite Nat.sub_succ, Nat.sub_0_r. change (seq 1 (S (length l))) with (1 :: seq 2 (length l)). by rewrite bind_cons.
Qed.
Global Instance name_inhabited : Inhabited name := populate (NInt 0).
Lemma has_size_len P L z : lists_exactly L P -> has_size P z <-> Z.of_nat (length L) = z.
Proof.
  intros HL. split; [|intros <-; by exists L]. intros Hz. apply (has_size_fun P); [by exists L|done].
Qed.
Lemma fits_spec (nls : list nl) perm sizes inters ty di : NoDup nls -> (forall a, a ∈ nls -> length a = 2) ->
  NoDup perm -> perm <> [] -> length perm <= length sizes -> length (role_sets perm) <= length inters -> ty <> OtherType ->
  (forall j c, role_sets (seq 0 (length perm)) !! j = Some c -> dget di c = inters !! j) ->
  exists b, perm_ok (layer_nodes nls) di sizes ty perm = Ok b /\ (b = true <->
    (forall i l s, perm !! i = Some l -> sizes !! i = Some s -> has_size (fun x => [x; l] ∈ nls) s) /\
    (forall j c z, role_sets perm !! j = Some c -> inters !! j = Some (Some z) ->
      exists k, has_size (fun x => forall l, l ∈ c -> [x; l] ∈ nls) k /\ (ty = Strict -> k = z) /\ (ty = LessOrEqual -> (k <= z)%Z))).
Proof.
  intros Hnd Hlen Hp Hpne Hsz Hin Hty Hdi. destruct (layer_nodes_spec nls Hnd Hlen) as (_ & _ & HD).
  set (d := layer_nodes nls) in *.
  set (P := fun c : list name => (forall l i s, c = [l] -> perm !! i = Some l -> sizes !! i = Some s -> has_size (fun x => [x; l] ∈ nls) s) /\
    (2 <= length c -> forall j z, role_sets perm !! j = Some c -> inters !! j = Some (Some z) ->
      exists k, has_size (fun x => forall l, l ∈ c -> [x; l] ∈ nls) k /\ (ty = Strict -> k = z) /\ (ty = LessOrEqual -> (k <= z)%Z))).
  unfold perm_ok. rewrite combos_split by done.
  destruct (rforall_spec (combo_ok d di sizes ty perm) P (combs 1 perm ++ role_sets perm)) as (b & E & Hb).
  - intros c [Hc|Hc]%elem_of_app.
    + rewrite combs_1 in Hc. apply elem_of_list_fmap in Hc as (l & -> & Hl). apply elem_of_list_lookup in Hl as [i Hi].
      cbn [combo_ok]. rewrite (index_of_lookup perm i l Hp Hi).
      destruct (lookup_lt_is_Some_2 sizes i) as [s Hs]; [apply lookup_lt_Some in Hi; lia|]. rewrite Hs. eexists. split; [done|].
      rewrite bool_decide_eq_true. rewrite <- (has_size_len _ _ _ (HD l)). split.
      * intros H. split; [|simpl; lia]. intros l' i' s' [= <-] Hi' Hs'. rewrite (NoDup_lookup perm i' i l) in Hs' by done. by simplify_eq.
      * intros [H _]. by eapply H.
    + apply elem_of_list_lookup in Hc as [j Hj]. assert (c ∈ role_sets perm) as Hc by by eapply elem_of_list_lookup_2.
      apply elem_of_role_sets in Hc as [Hsub Hc2].
      pose proof Hj as Hj0. rewrite (roles_as_map perm), role_sets_fmap, list_lookup_fmap in Hj0.
      destruct (role_sets (seq 0 (length perm)) !! j) as [r|] eqn:Er; [|done]. injection Hj0 as Hr.
      assert (r ∈ role_sets (seq 0 (length perm))) as Hrin by by eapply elem_of_list_lookup_2. apply elem_of_role_sets in Hrin as [Hrs _].
      assert ((fun l => index_of l perm) <$> c = r) as Hidx.
      { rewrite <- Hr, <- list_fmap_compose. rewrite <- (list_fmap_id r) at 2. apply list_fmap_ext. intros k i Hi.
        assert (i < length perm). { assert (i ∈ seq 0 (length perm)) as Hi' by (eapply sublist_elem; [done|by eapply elem_of_list_lookup_2]). apply elem_of_seq in Hi'. lia. }
        simpl. apply index_of_lookup; [done|]. by apply list_lookup_lookup_total_lt. }
      assert (dget di (merge_sort le ((fun l => index_of l perm) <$> c)) = inters !! j) as Hdg.
      { rewrite Hidx, merge_sorted by by eapply seq_sublist_sorted. by apply Hdi. }
      destruct (lookup_lt_is_Some_2 inters j) as [o Ho]; [apply lookup_lt_Some in Hj; lia|].
      assert (c <> []) as Hcne by (intros ->; simpl in Hc2; lia).
      assert (lists_exactly (common d c) (fun x => forall l, l ∈ c -> [x; l] ∈ nls)) as Hcm.
      { destruct (common_spec d c Hcne) as [H1 H2]; [intros l; apply HD|]. split; [done|]. intros x. rewrite H2. split; intros H l Hl; apply (HD l); by apply H. }
      assert (forall j' o', role_sets perm !! j' = Some c -> inters !! j' = Some o' -> o' = o) as Hu.
      { intros j' o' Hj' Ho'. rewrite (NoDup_lookup (role_sets perm) j' j c) in Ho' by (done || by apply NoDup_role_sets). congruence. }
      destruct c as [|l1 [|l2 c]]; [done|simpl in Hc2; lia|]. cbn [combo_ok]. rewrite Hdg, Ho. destruct o as [z|].
      * eexists. split; [done|]. split.
        -- intros H. split; [by intros ??? [=]|]. intros _ j' z' Hj' Hz'. specialize (Hu j' (Some z') Hj' Hz'). injection Hu as ->.
           eexists. split; [apply (has_size_len _ _ _ Hcm); done|]. split; intros ->; by apply bool_decide_eq_true in H.
        -- intros [_ H]. destruct (H ltac:(simpl; lia) j z Hj Ho) as (k & Hk & H1 & H2). apply (has_size_len _ _ _ Hcm) in Hk. rewrite Hk.
           destruct ty; [| |done]; apply bool_decide_eq_true; auto.
      * exists true. split; [done|]. split; [|done]. intros _. split; [by intros ??? [=]|]. intros _ j' z' Hj' Hz'. specialize (Hu j' (Some z') Hj' Hz'). done.
  - exists b. split; [done|]. rewrite Hb. split.
    + intros H. split.
      * intros i l s Hi Hs. destruct (H [l]) as [H1 _]; [|by eapply H1]. apply elem_of_app. left. rewrite combs_1. apply elem_of_list_fmap. exists l. split; [done|]. by eapply elem_of_list_lookup_2.
      * intros j c z Hj Hz. assert (c ∈ role_sets perm) as Hc by by eapply elem_of_list_lookup_2. destruct (H c) as [_ H2]; [apply elem_of_app; by right|].
        apply elem_of_role_sets in Hc as [_ Hc]. by eapply H2.
    + intros [H1 H2] c Hc. split; [intros l i s -> Hi Hs; by eapply H1|]. intros _ j z Hj Hz. by eapply H2.
Qed.
Lemma role_sets_len_eq {A B} (l : list A) (m : list B) : length l = length m -> length (role_sets l) = length (role_sets m).
Proof.
  intros H. destruct (decide (length l = 0)) as [H0|H0].
  - destruct l; [|done]. by destruct m.
  - rewrite !role_sets_length; [by rewrite H|by destruct m|by destruct l].
Qed.
Lemma default_check_spec str n A B sizes inters nnodes nlayers ty rn rl : reachable n -> aspects n = 1 -> directed n = false ->
  (forall a b, a ∈ iter_node_layers n -> b ∈ iter_node_layers n -> str a = str b -> a = b) ->
  req_lengths sizes inters nnodes nlayers ty = Ok (rn, rl) -> Z.of_nat (length A) = rn -> Z.of_nat (length B) = rl ->
  Forall (fun s => 1 <= s)%Z sizes -> length B <= length sizes -> 2 ^ length B - length B - 1 <= length inters ->
  exists b, default_check str n A B sizes inters nnodes nlayers ty = Ok b /\ (b = true <-> acceptable n A B sizes inters ty).
Proof.
  intros Hr Ha Hd Hinj Hreq HA HB Hpos Hls Hli. destruct (induced_spec str n A B Hr Ha Hd Hinj) as (ind & g & c & E1 & E2 & E3 & Hc & [Hnd Hnl]).
  assert (ty <> OtherType) as Hty. { by intros ->. }
  unfold default_check. rewrite Hreq. cbn [rbind fst snd]. rewrite decide_True by done. rewrite decide_True by done.
  assert (forallb (fun i => bool_decide (1 <= i)%Z) sizes = true) as ->.
  { apply forallb_forall. intros z Hz%elem_of_list_In. apply bool_decide_eq_true. rewrite Forall_forall in Hpos. auto. }
  rewrite E1. cbn [rbind]. rewrite E2. cbn [rbind]. rewrite E3. cbn [rbind].
  assert (c <> Some true -> forall r : res bool, exists b, Ok false = Ok b /\ (b = true <-> acceptable n A B sizes inters ty)) as Hno.
  { intros Hne _. exists false. split; [done|]. split; [done|]. intros [H _]. by apply Hc in H. }
  destruct c as [[|]|]; [|apply Hno; [done|exact (Ok true)]..]. clear Hno.
  destruct (no_empty (iter_node_layers ind) A B) eqn:En.
  2:{ exists false. split; [done|]. split; [done|]. intros (_ & H & _). apply (no_empty_spec n _ A B Hnl) in H. congruence. }
  apply (no_empty_spec n _ A B Hnl) in En.
  assert (forall a, a ∈ iter_node_layers ind -> length a = 2) as Hlen. { intros a Ha'%Hnl. destruct Ha' as [_ (? & ? & -> & _)]. done. }
  destruct (layer_nodes_spec _ Hnd Hlen) as (HD1 & HD2 & HD3).
  assert (forall l, l ∈ dkeys (layer_nodes (iter_node_layers ind)) <-> l ∈ B) as Hkeys.
  { intros l. rewrite HD2. split.
    - intros (x & Hx%Hnl). destruct Hx as [_ (? & ? & [= -> ->] & _ & Hl)]. done.
    - intros Hl. destruct (proj2 En l Hl) as (x & Hx & Hxl). exists x. apply Hnl. split; [done|]. eauto 6. }
  assert (length (layer_nodes (iter_node_layers ind)) = length B <-> NoDup B) as HndB.
  { rewrite <- dkeys_length. split.
    - intros Hl. assert (dkeys (layer_nodes (iter_node_layers ind)) ≡ₚ B) as Hp.
      { apply submseteq_Permutation_length_le; [lia|]. apply NoDup_submseteq; [done|]. intros x Hx. by apply Hkeys. }
      by rewrite <- Hp.
    - intros HB'. apply Permutation_length, NoDup_Permutation; [done..|]. apply Hkeys. }
  destruct (decide (Z.of_nat (length (layer_nodes (iter_node_layers ind))) = rl)) as [Hl|Hl].
  2:{ exists false. split; [done|]. split; [done|]. intros (_ & _ & H%HndB & _). lia. }
  assert (NoDup B) as HB' by (apply HndB; lia).
  assert (B <> []) as HBne. { intros ->. destruct (proj1 Hc eq_refl) as [(a & _ & (? & ? & _ & _ & ?%elem_of_nil)) _]. done. }
  assert (length (role_sets B) <= length inters) as Hli'. { rewrite role_sets_length by done. lia. }
  assert (length B <> 0) as HB0 by (destruct B; done).
  destruct (d_isect_spec (length B) inters) as (di & Edi & Hdi); [done| |].
  { rewrite (role_sets_len_eq (seq 0 (length B)) B); [done|]. apply seq_length. }
  rewrite Edi. cbn [rbind].
  assert (forall p, p ≡ₚ B -> (exists b, perm_ok (layer_nodes (iter_node_layers ind)) di sizes ty p = Ok b /\ (b = true <-> roles_fit n A p sizes inters ty))) as Hperm.
  { intros p Hp. destruct (fits_spec (iter_node_layers ind) p sizes inters ty di) as (b & Eb & Hb); try done.
    - by rewrite Hp.
    - intros ->. by apply Permutation_nil in Hp.
    - by rewrite (Permutation_length Hp).
    - rewrite (role_sets_len_eq p B); [done|]. by apply Permutation_length.
    - by rewrite (Permutation_length Hp).
    - exists b. split; [done|]. rewrite Hb. unfold roles_fit.
      assert (forall x l, l ∈ p -> [x; l] ∈ iter_node_layers ind <-> x ∈ A /\ [x; l] ∈ iter_node_layers n) as Hx.
      { intros x l Hlp. rewrite Hnl. unfold sel_in. rewrite Hp in Hlp. naive_solver. }
      assert (forall Q R z, (forall x, Q x <-> R x) -> has_size Q z <-> has_size R z) as Hext.
      { intros Q R z HQR. unfold has_size, lists_exactly. setoid_rewrite HQR. done. }
      assert (forall j c, role_sets p !! j = Some c -> c <> [] /\ forall l, l ∈ c -> l ∈ p) as Hcs.
      { intros j c Hj. assert (c ∈ role_sets p) as Hc' by by eapply elem_of_list_lookup_2. apply elem_of_role_sets in Hc' as [H1 H2]. split; [intros ->; simpl in H2; lia|].
        intros l. by apply sublist_elem. }
      assert (forall c, c <> [] -> (forall l, l ∈ c -> l ∈ p) -> forall x, (forall l, l ∈ c -> [x; l] ∈ iter_node_layers ind) <-> (x ∈ A /\ forall l, l ∈ c -> [x; l] ∈ iter_node_layers n)) as Hx2.
      { intros c Hc1 Hc2 x. split.
        - intros H. destruct c as [|l0 c]; [done|]. split; [apply (Hx x l0); [apply Hc2; left|apply H; left]|]. intros l Hl'. apply Hx; auto.
        - intros [H1 H2] l Hl'. apply Hx; auto. }
      split; intros [H1 H2]; split.
      + intros i l s Hi Hs. specialize (H1 i l s Hi Hs). revert H1. apply Hext. intros x. symmetry. apply Hx. by eapply elem_of_list_lookup_2.
      + intros j c z Hj Hz. destruct (H2 j c z Hj Hz) as (k & Hk & Hk'). exists k. split; [|done]. revert Hk. apply Hext. intros x. symmetry. destruct (Hcs j c Hj). by apply Hx2.
      + intros i l s Hi Hs. specialize (H1 i l s Hi Hs). revert H1. apply Hext. intros x. apply Hx. by eapply elem_of_list_lookup_2.
      + intros j c z Hj Hz. destruct (H2 j c z Hj Hz) as (k & Hk & Hk'). exists k. split; [|done]. revert Hk. apply Hext. intros x. destruct (Hcs j c Hj). by apply Hx2. }
  destruct (rexists_spec (perm_ok (layer_nodes (iter_node_layers ind)) di sizes ty) (fun p => roles_fit n A p sizes inters ty) (permutations B)) as (b & Eb & Hb).
  { intros p Hp%permutations_Permutation. apply Hperm. done. }
  exists b. split; [done|]. rewrite Hb. unfold acceptable. setoid_rewrite permutations_Permutation. split.
  - intros (p & Hp & Hf). split; [by apply Hc|]. split; [done|]. split; [done|]. exists p. done.
  - intros (_ & _ & _ & p & Hp & Hf). exists p. done.
Qed.
