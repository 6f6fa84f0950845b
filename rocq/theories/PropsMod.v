(** * Property C93: the modularity view *)
From stdpp Require Import prelude.
From Coq Require Import QArith.
From Verif Require Import Base Net NetSpec NetFacts NetHist NetIter NetEdges ModView PropsNet.
Local Open Scope nat_scope.

(** [k] is the strength of the node [x] inside the layer [s]: the weights of its links
    to node-layers of [s], for a directed network those of both directions. *)
Definition layer_strength (n : mlnet) (x : name) (s : list name) (k : Z) : Prop :=
  exists so si Lo Li fo fi, lists_exactly Lo (fun b => linked n (x :: s) b /\ tail b = s) /\ (forall b, b ∈ Lo -> reads n (x :: s) b (fo b)) /\ so = zsumf fo Lo /\
    lists_exactly Li (fun b => linked n b (x :: s) /\ tail b = s) /\ (forall b, b ∈ Li -> reads n b (x :: s) (fi b)) /\ si = zsumf fi Li /\
    k = (if directed n then si + so else so)%Z.
(** [m] is the sum of the strengths of all nodes inside [s]. *)
Definition layer_total (n : mlnet) (s : list name) (m : Z) : Prop :=
  exists k, (forall x, x ∈ net_nodes n -> layer_strength n x s (k x)) /\ m = zsumf k (net_nodes n).
(** [u] is the sum of the weights over all ordered pairs of node-layers that can be made
    from the nodes and layers. *)
Definition all_weights (n : mlnet) (u : Z) : Prop :=
  exists L f, lists_exactly L (fun a => Forall2 (fun x s => x ∈ s) a (slices n)) /\ (forall a b, a ∈ L -> b ∈ L -> reads n a b (f a b)) /\ u = zsumf (fun a => zsumf (f a) L) L.
(** [s] names one layer in each aspect. *)
Definition a_layer (n : mlnet) (s : list name) : Prop := s ∈ cart (drop 1 (slices n)).

Definition sdims (s : list name) : list (option name) := None :: (Some <$> s).
Definition kstr (n : mlnet) (x : name) (s : list name) : Z := strength n (x :: s) (Some (sdims s)).
Lemma matches_slice n s b : length s = aspects n -> length b = S (aspects n) -> matches (Some (sdims s)) b <-> tail b = s.
Proof.
  intros Hs Hb. destruct b as [|y b]; [done|]. cbn [tail]. unfold matches, sdims. split.
  - intros H. apply list_eq_same_length with (length s); [done|cbn in Hb; lia|]. intros k u v _ Hu Hv.
    assert ((y :: b) !! S k = Some v) as H'. { apply H. change ((Some <$> s) !! k = Some (Some v)). by rewrite list_lookup_fmap, Hv. } change (b !! k = Some v) in H'. congruence.
  - intros ->. intros [|k] x; [done|]. change ((Some <$> s) !! k = Some (Some x) -> s !! k = Some x). rewrite list_lookup_fmap. destruct (s !! k); [|done]. by intros [= ->].
Qed.
Lemma slice_str_ok n x s : length s = aspects n -> slice_str n x s = Ok (kstr n x s).
Proof.
  intros Hs. unfold slice_str, getitem. assert (length (interleave (INm <$> (x :: s)) (IColon :: (INm <$> s))) = 2 * S (aspects n)) as Hl.
  { rewrite interleave_length; cbn; rewrite !fmap_length; lia. }
  rewrite decide_False by lia. rewrite decide_True by done. unfold getitem_full. rewrite evens_interleave by (cbn; rewrite !fmap_length; lia). rewrite mapM_INm.
  rewrite odds_interleave by (cbn; rewrite !fmap_length; lia). rewrite decide_True by (by left). rewrite slice_dims_spec by (cbn; rewrite fmap_length; lia). cbn [rbind].
  unfold kstr. do 3 f_equal. unfold sdims. cbn. f_equal. clear. induction s as [|y s IH]; [done|]. cbn. f_equal. done.
Qed.
Section view.
Context {asp noe dir fi h n} (H : hist asp noe dir fi h n).
Lemma kstr_ok x s : length s = asp -> layer_strength n x s (kstr n x s).
Proof.
  intros Hs. destruct (hist_inv _ _ _ _ _ _ H) as [_ _ Hasp _ Hd _]. assert (dims_ok n (Some (sdims s))) as Hds by (cbn; rewrite fmap_length; lia).
  destruct (C09_strengths_exact _ _ _ _ _ _ H (x :: s) _ Hds) as ((Lo & fo & A1 & A2 & A3) & (Li & fi' & B1 & B2 & B3) & C).
  exists (strength_out n (x :: s) (Some (sdims s))), (strength_in n (x :: s) (Some (sdims s))), Lo, Li, fo, fi'.
  split. { eapply lists_exactly_iff; [|exact A1]. intros b. cbn beta. split; intros [Hl Hm]; (split; [done|]); destruct Hl as (_ & Hb & _); apply (matches_slice n s b); try done; lia. }
  split; [done|]. split; [done|].
  split. { eapply lists_exactly_iff; [|exact B1]. intros b. cbn beta. split; intros [Hl Hm]; (split; [done|]); destruct Hl as (Hb & _); apply (matches_slice n s b); try done; lia. }
  split; [done|]. split; [done|]. unfold kstr. rewrite C, Hd. done.
Qed.
Lemma layer_strength_unique x s k k' : layer_strength n x s k -> layer_strength n x s k' -> k = k'.
Proof.
  pose proof (hist_good _ _ _ _ _ _ H) as Hg.
  intros (so & si & Lo & Li & fo & fi1 & A1 & A2 & -> & A3 & A4 & -> & ->) (so' & si' & Lo' & Li' & fo' & fi' & B1 & B2 & -> & B3 & B4 & -> & ->).
  assert (zsumf fo Lo = zsumf fo' Lo') as ->.
  { rewrite (zsumf_perm fo Lo Lo') by (by eapply lists_exactly_perm). apply zsumf_ext. intros b Hb. apply B1 in Hb as Hl. destruct Hl as [(? & ? & _) _].
    specialize (B2 b Hb). assert (b ∈ Lo) as Hb' by (by apply A1, B1). specialize (A2 b Hb'). apply reads_rd in A2, B2; try done. congruence. }
  assert (zsumf fi1 Li = zsumf fi' Li') as ->; [|done].
  { rewrite (zsumf_perm fi1 Li Li') by (by eapply lists_exactly_perm). apply zsumf_ext. intros b Hb. apply B3 in Hb as Hl. destruct Hl as [(? & ? & _) _].
    specialize (B4 b Hb). assert (b ∈ Li) as Hb' by (by apply A3, B3). specialize (A4 b Hb'). apply reads_rd in A4, B4; try done. congruence. }
Qed.
Lemma a_layer_length s : a_layer n s -> length s = asp.
Proof.
  intros Hs. destruct (hist_inv _ _ _ _ _ _ H) as [Hw _ Hasp _ _ _]. unfold a_layer in Hs. apply elem_of_cart, Forall2_length in Hs. rewrite Hs, drop_length.
  pose proof (hist_good _ _ _ _ _ _ H) as [HS _]. pose proof (wfS_len _ HS). lia.
Qed.
Lemma masses_ok : net_nodes n <> [] -> slice_masses n = Ok ((fun s => (s, (inject_Z (zsumf (fun x => kstr n x s) (net_nodes n)) / 2)%Q)) <$> cart (drop 1 (slices n))).
Proof.
  intros Hne. unfold slice_masses. assert (forall {A B} (f : A -> res B) g l, (forall x, x ∈ l -> f x = Ok (g x)) -> rmapM f l = Ok (g <$> l)) as Hm.
  { intros A B f g l. induction l as [|x l IH]; intros Hf; [done|]. cbn [rmapM]. rewrite Hf by (by left). cbn [rbind]. rewrite IH by (intros; apply Hf; by right). done. }
  apply Hm. intros s Hs. rewrite decide_False by done. rewrite (Hm _ _ _ (fun x => kstr n x s)); [done|]. intros x _. apply slice_str_ok.
  destruct (hist_inv _ _ _ _ _ _ H) as [_ _ Hasp _ _ _]. rewrite Hasp. by apply a_layer_length.
Qed.
Lemma mass_get s l (f : list name -> Q) : s ∈ l -> dget ((fun s => (s, f s)) <$> l) s = Some (f s).
Proof. induction l as [|t l IH]; [intros Hx; by apply elem_of_nil in Hx|]. intros Hs. cbn. destruct (decide (s = t)) as [->|Hne]; [done|]. apply IH. by apply elem_of_cons in Hs as [->|]. Qed.
Lemma total_ok u : all_weights n u -> total_weight n = u.
Proof.
  intros (L & f & HL & Hf & ->). unfold total_weight. pose proof (hist_good _ _ _ _ _ _ H) as [HS _].
  assert (Permutation (cart (slices n)) L) as HP. { apply NoDup_same_perm; [|apply HL|]. - apply NoDup_cart. apply HS. - intros a. rewrite elem_of_cart. symmetry. apply HL. }
  rewrite (zsumf_perm _ _ _ HP). apply zsumf_ext. intros a Ha. rewrite (zsumf_perm _ _ _ HP). apply zsumf_ext. intros b Hb.
  assert (forall c, c ∈ L -> length c = S (aspects n)) as Hlen. { intros c Hc. apply HL, Forall2_length in Hc. rewrite Hc. by apply wfS_len. }
  specialize (Hf a b Ha Hb). apply reads_rd in Hf; [|by apply Hlen..]. rewrite weight_rd by (rewrite !Hlen; done). done.
Qed.
End view.

(** Making the view: KeyError if there is a layer but no node, otherwise ZeroDivisionError
    iff the weights of all pairs of node-layers add up to 0. *)
Theorem C93_new asp noe dir fi h n gamma : hist asp noe dir fi h n ->
  (forall s, a_layer n s -> net_nodes n = [] -> new_view n gamma = Err KeyError) /\
  (net_nodes n <> [] -> all_weights n 0 -> new_view n gamma = Err ZeroDivisionError) /\
  (forall u, net_nodes n <> [] -> all_weights n u -> u <> 0%Z -> exists v, new_view n gamma = Ok v).
Proof.
  intros H. unfold new_view. split_and!.
  - intros s Hs Hn. unfold slice_masses, a_layer in *. destruct (cart (drop 1 (slices n))) as [|t l]; [by apply elem_of_nil in Hs|]. cbn [rmapM]. by rewrite decide_True.
  - intros Hn Hu%(total_ok H). rewrite (masses_ok H) by done. cbn [rbind]. by rewrite decide_True.
  - intros u Hn Hu%(total_ok H) H0. subst u. rewrite (masses_ok H) by done. cbn [rbind]. rewrite decide_False by done. by eexists.
Qed.
(** Inside a layer: the weight minus gamma times the product of the strengths over the total strength. *)
Theorem C93_inside asp noe dir fi h n gamma v i j s w ki kj m : hist asp noe dir fi h n -> new_view n gamma = Ok v -> net_nodes n <> [] -> a_layer n s ->
  reads n (i :: s) (j :: s) w -> layer_strength n i s ki -> layer_strength n j s kj -> layer_total n s m ->
  (m <> 0%Z -> exists q, view_weight v n (i :: s) (j :: s) = Ok q /\ (q == inject_Z w - gamma * inject_Z ki * inject_Z kj / inject_Z m)%Q) /\
  (m = 0%Z -> view_weight v n (i :: s) (j :: s) = Err ZeroDivisionError).
Proof.
  intros H Ev Hne Hs Hw Hki Hkj (k & Hk & Hm). pose proof (a_layer_length H s Hs) as Hl. destruct (hist_inv _ _ _ _ _ _ H) as [_ _ Hasp _ _ _].
  assert (kstr n i s = ki) as Ei by (eapply (layer_strength_unique H); [by apply (kstr_ok H)|done]).
  assert (kstr n j s = kj) as Ej by (eapply (layer_strength_unique H); [by apply (kstr_ok H)|done]).
  assert (m = zsumf (fun x => kstr n x s) (net_nodes n)) as Em.
  { rewrite Hm. apply zsumf_ext. intros x Hx. eapply (layer_strength_unique H); [by apply Hk|by apply (kstr_ok H)]. }
  unfold new_view in Ev. rewrite (masses_ok H Hne) in Ev. cbn [rbind] in Ev. destruct (decide _); [done|]. injection Ev as <-.
  unfold view_weight, view_link. rewrite evens_interleave, odds_interleave by (cbn; lia). cbn [drop]. rewrite decide_True by done. cbn [interleave].
  rewrite !drop_0. rewrite !slice_str_ok by lia. cbn [rbind vm vgamma]. rewrite (mass_get s _ (fun s => (inject_Z (zsumf (fun x => kstr n x s) (net_nodes n)) / 2)%Q)) by exact Hs. rewrite <- Em, Ei, Ej.
  assert (get_link n (i :: j :: interleave s s) = w) as ->. { change (weight n (i :: s) (j :: s) = w). apply reads_rd in Hw; [|cbn; lia..]. rewrite weight_rd by done. done. }
  assert (2 * (inject_Z m / 2) == inject_Z m)%Q as E2 by field. split.
  - intros Hm0. destruct (Qeq_bool (2 * (inject_Z m / 2)) 0) eqn:Eb. { apply Qeq_bool_eq in Eb. rewrite E2 in Eb. exfalso. apply Hm0. unfold Qeq in Eb. cbn in Eb. lia. }
    eexists. split; [done|]. by rewrite E2.
  - intros ->. done.
Qed.
(** Between layers: the weight. *)
Theorem C93_between v n a b w : length a = S (aspects n) -> length b = S (aspects n) -> tail a <> tail b -> reads n a b w -> view_weight v n a b = Ok (inject_Z w).
Proof.
  intros Ha Hb Hne Hw. unfold view_weight, view_link. rewrite evens_interleave, odds_interleave by lia. rewrite decide_False by (by destruct a, b).
  do 2 f_equal. change (weight n a b = w). apply reads_rd in Hw; [|done..]. rewrite weight_rd by lia. done.
Qed.
(** Undirected, absent links of weight 0: the entries of a layer add up to (1 - gamma) times its total
    strength, so to 0 for gamma = 1. *)
Definition qsum {A} (f : A -> Q) (l : list A) : Q := foldr (fun x q => f x + q)%Q 0%Q l.
Lemma qsum_ext {A} (f g : A -> Q) l : (forall x, x ∈ l -> (f x == g x)%Q) -> (qsum f l == qsum g l)%Q.
Proof. induction l as [|x l IH]; intros E; [done|]. cbn. rewrite (E x) by (by left). rewrite IH by (intros; apply E; by right). reflexivity. Qed.
Lemma qsum_lin {A} (f : A -> Z) (c : Q) (g : A -> Z) l : (qsum (fun x => inject_Z (f x) - c * inject_Z (g x)) l == inject_Z (zsumf f l) - c * inject_Z (zsumf g l))%Q.
Proof. induction l as [|x l IH]; [rewrite !zsumf_nil; cbn; ring|]. cbn [qsum foldr]. fold (qsum (fun x => inject_Z (f x) - c * inject_Z (g x))%Q l). rewrite IH, !zsumf_cons, !inject_Z_plus. ring. Qed.
Lemma strength_row asp fi h n i s : hist asp 0 false fi h n -> a_layer n s -> kstr n i s = zsumf (fun j => weight n (i :: s) (j :: s)) (net_nodes n).
Proof.
  intros H Hs. pose proof (hist_good _ _ _ _ _ _ H) as Hg. pose proof (a_layer_length H s Hs) as Hl. destruct (hist_inv _ _ _ _ _ _ H) as [_ _ Hasp Hnoe Hd _].
  unfold kstr, strength. rewrite Hd. unfold strength_out.
  assert (dims_ok n (Some (sdims s))) as Hds by (cbn; rewrite fmap_length; lia). pose proof (iter_out_exact n (i :: s) _ Hg Hds) as [Hnd HL].
  assert (forall j, weight n (i :: s) (j :: s) = if decide (j :: s ∈ iter_out n (i :: s) (Some (sdims s))) then weight n (i :: s) (j :: s) else 0%Z) as Hw.
  { intros j. destruct (decide _) as [|Hn]; [done|]. destruct (decide (weight n (i :: s) (j :: s) = 0%Z)) as [|Hw]; [done|]. destruct Hn. apply HL. split.
    - split; [cbn; lia|]. split; [cbn; lia|]. exists (weight n (i :: s) (j :: s)). split; [apply reads_weight; cbn; lia|]. by rewrite Hnoe.
    - by apply (matches_slice n s); [lia|cbn; lia|]. }
  rewrite (zsumf_ext _ _ _ (fun j _ => Hw j)). rewrite <- (zsumf_filter (fun j => j :: s ∈ iter_out n (i :: s) (Some (sdims s)))).
  rewrite <- (zsumf_fmap (fun b => weight n (i :: s) b) (fun j => j :: s)). apply zsumf_perm. apply NoDup_Permutation; [done| |].
  - apply NoDup_fmap_2; [by intros ? ? [= ->]|]. apply NoDup_filter. unfold net_nodes. pose proof (wfS_nodup _ (proj1 Hg)) as Hf. rewrite Forall_forall in Hf.
    destruct (slices n !! 0) as [l0|] eqn:E0; cbn; [|constructor]. apply Hf. by eapply elem_of_list_lookup_2.
  - intros b. rewrite elem_of_list_fmap. split.
    + intros Hb. pose proof (proj1 (HL b) Hb) as [Hlk Hm]. pose proof Hlk as (_ & Lb & _). apply (matches_slice n s) in Hm; [|lia|done].
      destruct b as [|j b]; [done|]. cbn in Hm. subst b. exists j. split; [done|]. apply elem_of_list_filter. split; [done|].
      apply linked_lnk in Hlk; [|done]. apply (lnk_cart n _ _ Hg) in Hlk as [_ Hc]. apply elem_of_cart in Hc. unfold net_nodes. destruct (slices n) as [|l0 ls]; [by inversion Hc|]. inversion Hc; subst. done.
    + intros (j & -> & Hj). by apply elem_of_list_filter in Hj as [? _].
Qed.
Theorem C93_sum asp fi h n gamma v s m : hist asp 0 false fi h n -> new_view n gamma = Ok v -> net_nodes n <> [] -> a_layer n s -> layer_total n s m -> m <> 0%Z ->
  exists q : name -> name -> Q, (forall i j, i ∈ net_nodes n -> j ∈ net_nodes n -> view_weight v n (i :: s) (j :: s) = Ok (q i j)) /\
    (qsum (fun i => qsum (q i) (net_nodes n)) (net_nodes n) == (1 - gamma) * inject_Z m)%Q.
Proof.
  intros H Ev Hne Hs Hm Hm0. pose proof (a_layer_length H s Hs) as Hl. destruct (hist_inv _ _ _ _ _ _ H) as [_ _ Hasp _ _ _].
  set (q := fun i j => match view_weight v n (i :: s) (j :: s) with Ok q => q | Err _ => 0%Q end).
  assert (forall i j, exists q', view_weight v n (i :: s) (j :: s) = Ok q' /\ (q' == inject_Z (weight n (i :: s) (j :: s)) - gamma * inject_Z (kstr n i s) * inject_Z (kstr n j s) / inject_Z m)%Q) as Hq.
  { intros i j. eapply (C93_inside _ _ _ _ _ _ gamma v i j s _ _ _ m H); try done; [apply reads_weight; cbn; lia|by apply (kstr_ok H)|by apply (kstr_ok H)]. }
  exists q. split. { intros i j _ _. unfold q. destruct (Hq i j) as (q' & -> & _). done. }
  assert (m = zsumf (fun x => kstr n x s) (net_nodes n)) as Em.
  { destruct Hm as (k & Hk & ->). apply zsumf_ext. intros x Hx. eapply (layer_strength_unique H); [by apply Hk|by apply (kstr_ok H)]. }
  assert (~ inject_Z m == 0)%Q as Hq0 by (unfold Qeq; cbn; lia).
  rewrite (qsum_ext _ (fun i => inject_Z (kstr n i s) - gamma * inject_Z (kstr n i s))%Q).
  - rewrite qsum_lin, <- Em. ring.
  - intros i _. rewrite (qsum_ext _ (fun j => inject_Z (weight n (i :: s) (j :: s)) - (gamma * inject_Z (kstr n i s) / inject_Z m) * inject_Z (kstr n j s))%Q).
    + rewrite qsum_lin, <- Em, <- (strength_row _ _ _ _ i s H Hs). field. done.
    + intros j _. unfold q. destruct (Hq i j) as (q' & -> & E). rewrite E. field. done.
Qed.
(** A triangle with a self-link in one layer and a link between layers. *)
Definition ex_m : mlnet := run (new_net 1 0 false true) [OpSet [A1; A2; La] 2; OpSet [A2; A3; La] 1; OpSet [A3; A3; La] 1; OpSet [A1; A1; La; Lb] 4].
Lemma ex_mhist : hist 1 0 false true [OpSet [A1; A2; La] 2; OpSet [A2; A3; La] 1; OpSet [A3; A3; La] 1; OpSet [A1; A1; La; Lb] 4] ex_m.
Proof. apply run_hist0. Qed.
Example C93_example : net_nodes ex_m <> [] /\ total_weight ex_m = 15%Z /\ a_layer ex_m [La] /\
  zsumf (fun x => kstr ex_m x [La]) (net_nodes ex_m) = 7%Z /\
  (let? v := new_view ex_m 1 in view_weight v ex_m [A1; La] [A2; La]) = Ok (16 # 14)%Q /\
  (let? v := new_view ex_m 1 in view_weight v ex_m [A1; La] [A1; Lb]) = Ok 4%Q /\
  (let? v := new_view ex_m 1 in view_weight v ex_m [A1; Lb] [A2; Lb]) = Err ZeroDivisionError /\ new_view (new_net 1 0 false true) 1 = Err ZeroDivisionError.
Proof. split; [done|]. split; [by vm_compute|]. split; [by left|]. vm_compute. done. Qed.
Lemma all_weights_exist asp noe dir fi h n : hist asp noe dir fi h n -> all_weights n (total_weight n).
Proof.
  intros H. pose proof (hist_good _ _ _ _ _ _ H) as [HS _]. exists (cart (slices n)), (weight n). split; [split; [apply NoDup_cart, HS|intros a; apply elem_of_cart]|]. split; [|done].
  intros a b Ha%elem_of_cart%Forall2_length Hb%elem_of_cart%Forall2_length. pose proof (wfS_len _ HS). apply reads_weight; lia.
Qed.
Example C93_ready : all_weights ex_m 15 /\ layer_total ex_m [La] 7.
Proof. split; [exact (all_weights_exist _ _ _ _ _ _ ex_mhist)|]. exists (fun x => kstr ex_m x [La]). split; [|by vm_compute]. intros x _. by apply (kstr_ok ex_mhist). Qed.
Print Assumptions C93_new.
Print Assumptions C93_inside.
Print Assumptions C93_between.
Print Assumptions C93_sum.
