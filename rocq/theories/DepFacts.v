(** * The dependency network of the orbit equations *)
From stdpp Require Import prelude relations.
From Verif Require Import Base Net Supra TransFacts TransFacts2 Samp SampFacts Graphlet GraphletSpec GraphletFacts SccFacts Indep IndepSpec IndepFacts.
Local Open Scope nat_scope.

Lemma perm2 {A} (a b c d : A) : [a; b] ≡ₚ [c; d] -> (a = c /\ b = d) \/ (a = d /\ b = c).
Proof. intros H. symmetry in H. apply Permutation_length_2_inv in H as [H|H]; injection H as -> ->; auto. Qed.
Lemma din_keys {V} (d : dict eqkey V) k : din d k = true <-> k ∈ dkeys d.
Proof. unfold din. rewrite elem_of_dkeys. destruct (dget d k); split; intros H; try done; by destruct H. Qed.
Lemma find_key_some {V} (o1 o2 : orbit) (eqs : dict eqkey V) k : find_key o1 o2 eqs = Some k -> k ∈ dkeys eqs /\ orbits2 k ≡ₚ [o1; o2].
Proof.
  unfold find_key. destruct (bool_decide (o1 = o2) && din eqs (KTwice o1)) eqn:E1.
  - apply andb_true_iff in E1 as [->%bool_decide_eq_true E]. intros [= <-]. split; [by apply din_keys|done].
  - destruct (din eqs (KPair o1 o2)) eqn:E2; [intros [= <-]; split; [by apply din_keys|done]|].
    destruct (din eqs (KPair o2 o1)) eqn:E3; [|done]. intros [= <-]. split; [by apply din_keys|]. cbn. apply perm_swap.
Qed.
Lemma find_key_none {V} (o1 o2 : orbit) (eqs : dict eqkey V) k : find_key o1 o2 eqs = None -> k ∈ dkeys eqs -> ~ orbits2 k ≡ₚ [o1; o2].
Proof.
  unfold find_key. destruct (bool_decide (o1 = o2) && din eqs (KTwice o1)) eqn:E1; [done|].
  destruct (din eqs (KPair o1 o2)) eqn:E2; [done|]. destruct (din eqs (KPair o2 o1)) eqn:E3; [done|]. intros _ Hk%din_keys Hp.
  destruct k as [a b|o]; cbn in Hp; apply perm2 in Hp as [[-> ->]|[-> ->]]; try congruence.
  - apply andb_false_iff in E1 as [E1|E1]; [|congruence]. by apply bool_decide_eq_false in E1.
  - apply andb_false_iff in E1 as [E1|E1]; [|congruence]. by apply bool_decide_eq_false in E1.
Qed.

Lemma okinj {A} (a b : A) : Ok a = Ok b -> a = b.
Proof. by intros [= ->]. Qed.
Ltac permS := cbn; first [reflexivity | apply perm_swap | apply perm_skip, perm_swap
  | etransitivity; [apply perm_swap|apply perm_skip, perm_swap]
  | etransitivity; [apply perm_skip, perm_swap|apply perm_swap]
  | etransitivity; [apply perm_swap|etransitivity; [apply perm_skip, perm_swap|apply perm_swap]]].
Section dep.
Context (nets : dict nat (list mpx)) (set_eqs : dict eqkey (list orbit)).
Lemma find_loop_ok o l acc : (forall p, p ∈ l -> is_Some (find_key o p set_eqs)) ->
  forall k, k ∈ find_loop o set_eqs acc l <-> k ∈ acc \/ exists p, p ∈ l /\ find_key o p set_eqs = Some k.
Proof.
  revert acc. induction l as [|p l IH]; intros acc H k; cbn [find_loop].
  - split; [by left|]. intros [?|(p & Hp & _)]; [done|by apply elem_of_nil in Hp].
  - destruct (H p) as [k0 E0]; [by left|]. rewrite E0, IH by (intros; apply H; by right). rewrite elem_of_sadd. split.
    + intros [[->|?]|(q & Hq & Eq)]; [right; exists p; split; [by left|done]|by left|right; exists q; split; [by right|done]].
    + intros [?|(q & [->|Hq]%elem_of_cons & Eq)]; [auto|left; left; congruence|right; by exists q].
Qed.
Lemma find_loop_none o l acc p : p ∈ l -> find_key o p set_eqs = None -> find_loop o set_eqs acc l = [].
Proof.
  revert acc. induction l as [|q l IH]; intros acc Hp E; [by apply elem_of_nil in Hp|]. cbn [find_loop].
  destruct (find_key o q set_eqs) eqn:Eq; [|done]. apply elem_of_cons in Hp as [->|Hp]; [congruence|]. by apply IH.
Qed.
Lemma find_equations_ok o eq : eq ∈ dkeys set_eqs -> exists ks, find_equations o (Some eq) set_eqs = Ok ks /\ forall k, k ∈ ks <-> product_key set_eqs o eq k.
Proof.
  intros [os Eos]%elem_of_dkeys. cbn [find_equations]. rewrite Eos. eexists. split; [done|]. intros k.
  destruct (decide (Forall (fun p => is_Some (find_key o p set_eqs)) os)) as [Hall|Hex].
  - rewrite Forall_forall in Hall. rewrite find_loop_ok by done. rewrite elem_of_nil. split.
    + intros [[]|(p & Hp & E)]. exists os. split_and!; [done..|by exists p].
    + intros (os' & E' & _ & p & Hp & E). right. exists p. split; [congruence|done].
  - apply not_Forall_Exists in Hex; [|intros ?; apply _]. apply Exists_exists in Hex as (p & Hp & Hn). apply eq_None_not_Some in Hn.
    rewrite (find_loop_none _ _ _ p Hp Hn). split; [intros Hk; by apply elem_of_nil in Hk|]. intros (os' & E' & Hall & _).
    assert (os' = os) as -> by congruence. destruct (Hall p Hp) as [? ?]. congruence.
Qed.
Lemma product_known o eq k : product_key set_eqs o eq k -> k ∈ dkeys set_eqs.
Proof. intros (os & _ & _ & p & _ & E). by apply find_key_some in E as [? _]. Qed.

Lemma dep_set_ok o eq s : eq ∈ dkeys set_eqs -> dep_set set_eqs o (Some eq) [Some eq] = Ok s ->
  forall u, u ∈ s <-> u = DEq eq \/ exists k, u = DEq k /\ product_key set_eqs o eq k.
Proof.
  intros Hk E u. destruct (find_equations_ok o eq Hk) as (ks & Ek & Hks). unfold dep_set in E. rewrite Ek in E. cbn [rbind] in E. apply okinj in E as <-.
  rewrite elem_of_sunion, elem_of_list_fmap. cbn. rewrite elem_of_list_singleton. split.
  - intros [(k & -> & Hk'%Hks)| ->]; [right; by exists k|by left].
  - intros [->|(k & -> & Hk'%Hks)]; [by right|left; by exists k].
Qed.
Lemma dep_set_key o key s : dep_set set_eqs o key [key] = Ok s -> (forall k, key = Some k -> k ∈ dkeys set_eqs) ->
  exists eq, key = Some eq /\ forall u, u ∈ s <-> u = DEq eq \/ exists k, u = DEq k /\ product_key set_eqs o eq k.
Proof. destruct key as [eq|]; [|done]. intros E Hk. exists eq. split; [done|]. apply dep_set_ok; [by apply Hk|done]. Qed.
Lemma subtrahend_err a b x : subtrahend nets a b = Ok x -> False.
Proof. unfold subtrahend. destruct (net_at nets (a.1.1) (a.1.2)); [|done]. destruct (net_at nets (b.1.1) (b.1.2)); done. Qed.

Lemma two_orbits2 eq : orbits2 eq = [(two_orbits eq).1; (two_orbits eq).2].
Proof. by destruct eq. Qed.
Lemma from_eq eq o s : eq ∈ dkeys set_eqs -> dep_set set_eqs o (Some eq) [Some eq] = Ok s -> triple_from set_eqs (orbits2 eq ++ [o]) s.
Proof. intros Hk E. exists eq, o. split; [done|]. split; [done|]. by apply dep_set_ok. Qed.
Lemma from_key a b o s : dep_set set_eqs o (find_key a b set_eqs) [find_key a b set_eqs] = Ok s -> triple_from set_eqs [a; b; o] s.
Proof.
  intros E. destruct (dep_set_key o _ s E) as (eq & Ek & Hu). { intros k Hk. by apply find_key_some in Hk as [? _]. }
  apply find_key_some in Ek as [Hk Hp]. exists eq, o. split; [done|]. split; [|done]. by rewrite Hp.
Qed.
Lemma triple_perm abc abc' s : abc ≡ₚ abc' -> triple_from set_eqs abc s -> triple_from set_eqs abc' s.
Proof. intros H (eq & o & H1 & H2 & H3). exists eq, o. split; [done|]. split; [|done]. by rewrite H2. Qed.

Ltac bnd E := match type of E with rbind ?m _ = _ => let x := fresh "s" in let F := fresh "F" in destruct m as [x|] eqn:F; [cbn [rbind] in E|done] end.
Lemma three_sets_ok eq o l : eq ∈ dkeys set_eqs -> three_sets nets set_eqs eq ((two_orbits eq).1) ((two_orbits eq).2) o = Ok l ->
  l <> [] /\ forall s, s ∈ l -> triple_from set_eqs (orbits2 eq ++ [o]) s.
Proof.
  intros Hk. unfold three_sets. rewrite two_orbits2. set (o1 := (two_orbits eq).1). set (o2 := (two_orbits eq).2).
  assert (forall s, dep_set set_eqs o (Some eq) [Some eq] = Ok s -> triple_from set_eqs ([o1; o2] ++ [o]) s) as H0. { intros s Es. subst o1 o2. rewrite <- (two_orbits2 eq). by apply from_eq. }
  destruct (decide (o1 = o2 /\ o2 = o)).
  { intros E. bnd E. injection E as <-. split; [done|]. intros s' ->%elem_of_list_singleton. by apply H0. }
  destruct (decide (o1 = o2)) as [E12|].
  { destruct (decide (o.1.1 < o1.1.1)).
    - intros E. bnd E. injection E as <-. split; [done|]. intros s' ->%elem_of_list_singleton. by apply H0.
    - intros E. bnd E. by apply subtrahend_err in F. }
  destruct (decide (o2 = o)).
  { intros E. bnd E. bnd E. by apply subtrahend_err in F0. }
  destruct (decide (o1 = o)).
  { intros E. bnd E. bnd E. injection E as <-. split; [done|]. intros s' [->|[->|Hs]%elem_of_cons]%elem_of_cons; [by apply H0| |by apply elem_of_nil in Hs].
    eapply triple_perm; [|by eapply from_key]. cbn. permS. }
  intros E. bnd E. bnd E. bnd E. injection E as <-. split; [done|]. intros s' [->|[->|[->|Hs]%elem_of_cons]%elem_of_cons]%elem_of_cons; [by apply H0| | |by apply elem_of_nil in Hs].
  - eapply triple_perm; [|by eapply from_key]. cbn. permS.
  - eapply triple_perm; [|by eapply from_key]. cbn. permS.
Qed.

Context (U : list eqkey).
Hypothesis HU : forall k, k ∈ U -> k ∈ dkeys set_eqs.
Definition entry_ok (d : depnet) (un : eqkey) (s : list depkey) : Prop := pair_from set_eqs un s /\ forall u, u ∈ s -> is_three u = true -> u ∈ dkeys d.
Definition wfd (d : depnet) : Prop :=
  NoDup (dkeys d) /\ forall key sets, dget d key = Some sets ->
    match key with
    | DThree a b c => sets <> [] /\ forall s, s ∈ sets -> triple_from set_eqs [a; b; c] s
    | DEq un => un ∈ U /\ forall s, s ∈ sets -> entry_ok d un s
    | DNone => False
    end.
Lemma entry_mono d d' un s : (forall k, k ∈ dkeys d -> k ∈ dkeys d') -> entry_ok d un s -> entry_ok d' un s.
Proof. intros H [H1 H2]. split; [done|]. intros u Hu Ht. by apply H, H2. Qed.
Lemma perms3_ok a b c k : k ∈ perms3 a b c -> exists x y z, k = DThree x y z /\ [a; b; c] ≡ₚ [x; y; z].
Proof.
  unfold perms3. intros H. repeat (apply elem_of_cons in H as [->|H]; [do 3 eexists; split; [done|]; permS|]). by apply elem_of_nil in H.
Qed.
Lemma wfd_set d key sets : wfd d -> (forall k, k ∈ dkeys d -> k ∈ dkeys (dset d key sets)) ->
  match key with
  | DThree a b c => sets <> [] /\ forall s, s ∈ sets -> triple_from set_eqs [a; b; c] s
  | DEq un => un ∈ U /\ forall s, s ∈ sets -> entry_ok (dset d key sets) un s
  | DNone => False
  end -> wfd (dset d key sets).
Proof.
  intros [Hn Hw] Hsub Hk. split; [by apply NoDup_dset|]. intros key' sets'. destruct (decide (key' = key)) as [->|Hne].
  - rewrite dget_dset_eq. intros [= <-]. done.
  - rewrite dget_dset_ne by done. intros E. specialize (Hw key' sets' E). destruct key' as [un|a b c|]; try done.
    destruct Hw as [? Hw]. split; [done|]. intros s Hs. eapply entry_mono; [|by apply Hw]. done.
Qed.
Lemma keys_dset (d : depnet) key sets : forall k, k ∈ dkeys d -> k ∈ dkeys (dset d key sets).
Proof. intros k Hk. apply elem_of_dkeys_dset. by right. Qed.
Lemma three_ok eq o d d' k : eq ∈ dkeys set_eqs -> wfd d -> three_orbit_equations nets set_eqs eq o d = Ok (d', k) ->
  wfd d' /\ (forall k, k ∈ dkeys d -> k ∈ dkeys d') /\ k ∈ dkeys d' /\ exists a b c, k = DThree a b c /\ orbits2 eq ++ [o] ≡ₚ [a; b; c].
Proof.
  intros Hk Hw. unfold three_orbit_equations. cbn zeta. destruct (list_find _ _) as [[i k0]|] eqn:Ef.
  - intros [= <- <-]. apply list_find_Some in Ef as (Hi & Hin & _). split; [done|]. split; [done|]. split; [done|].
    apply elem_of_list_lookup_2, perms3_ok in Hi as (x & y & z & -> & Hp). exists x, y, z. split; [done|]. by rewrite two_orbits2.
  - intros E. bnd E. injection E as <- <-. destruct (three_sets_ok eq o s Hk F) as [Hne Hs].
    assert (orbits2 eq ++ [o] ≡ₚ [o; (two_orbits eq).2; (two_orbits eq).1]) as Hp. { rewrite two_orbits2. cbn. permS. }
    split_and!.
    + apply wfd_set; [done|apply keys_dset|]. split; [done|]. intros s' Hs'. by apply (triple_perm _ _ _ Hp), Hs.
    + apply keys_dset.
    + apply elem_of_dkeys_dset. by left.
    + do 3 eexists. split; [done|]. done.
Qed.

Lemma dep_step_ok mx un o m s kv s' : (kv.1) ∈ dkeys set_eqs -> dget set_eqs (kv.1) = Some (kv.2) -> orbits2 un ≡ₚ [o; m] ->
  wfd (s.1) -> (forall x, x ∈ s.2 -> entry_ok (s.1) un x) -> dep_step nets set_eqs mx un o m s kv = Ok s' ->
  wfd (s'.1) /\ (forall k, k ∈ dkeys (s.1) -> k ∈ dkeys (s'.1)) /\ (forall x, x ∈ s'.2 -> entry_ok (s'.1) un x).
Proof.
  intros Hkv Eget Hun Hw Hs. unfold dep_step. destruct (decide (o ∈ kv.2)) as [Ho|]; [|by intros [= <-]].
  destruct (too_many_nodes _ _ _); [by intros [= <-]|]. intros E. bnd E. destruct s0 as [d' k]. cbn [fst snd] in E.
  destruct (three_ok _ _ _ _ _ Hkv Hw F) as (Hw' & Hsub & Hk & a & b & c & -> & Hp).
  destruct (find_equations_ok m (kv.1) Hkv) as (ks & Eks & Hks). rewrite Eks in E. cbn [rbind] in E. cbn zeta in E.
  assert (forall x, x ∈ s.2 -> entry_ok d' un x) as Hs'. { intros x Hx. eapply entry_mono; [|by apply Hs]. done. }
  destruct (decide (length (sdiff ks [un]) = 0)) as [El|El]; apply okinj in E as <-; cbn [fst snd].
  - done.
  - split; [done|]. split; [done|]. intros x [Hx|Hx%elem_of_list_singleton]%elem_of_app; [by apply Hs'|]. subst x.
    assert (forall u, u ∈ sunion (sunion [DEq (kv.1)] (DEq <$> sdiff ks [un])) [DThree a b c] <->
      u = DEq (kv.1) \/ (exists k, u = DEq k /\ k <> un /\ product_key set_eqs m (kv.1) k) \/ u = DThree a b c) as Hu.
    { intros u. rewrite !elem_of_sunion, !elem_of_list_singleton, elem_of_list_fmap. split.
      - intros [[->|(k & -> & Hk')]| ->]; [by left| |by right; right]. apply elem_of_sdiff in Hk' as [Hk1%Hks Hk2]. rewrite elem_of_list_singleton in Hk2. right; left. by exists k.
      - intros [->|[(k & -> & H1 & H2)| ->]]; [by left; left| |by right]. left; right. exists k. split; [done|]. apply elem_of_sdiff. rewrite elem_of_list_singleton. split; [by apply Hks|done]. }
    split.
    + exists (kv.1), (kv.2), o, m, a, b, c. split; [done|]. split; [done|]. split; [done|]. split; [done|]. split; [|done].
      destruct (sdiff ks [un]) as [|k0 ks0] eqn:Esd; [done|]. exists k0. assert (k0 ∈ sdiff ks [un]) as Hk0 by (rewrite Esd; by left).
      apply elem_of_sdiff in Hk0 as [H1%Hks H2]. rewrite elem_of_list_singleton in H2. done.
    + intros u [->|[(k & -> & _)| ->]]%Hu; done.
Qed.
Lemma dep_fold_ok mx un o m l s s' : (forall kv, kv ∈ l -> dget set_eqs (kv.1) = Some (kv.2)) -> orbits2 un ≡ₚ [o; m] ->
  wfd (s.1) -> (forall x, x ∈ s.2 -> entry_ok (s.1) un x) -> rfold (dep_step nets set_eqs mx un o m) s l = Ok s' ->
  wfd (s'.1) /\ (forall k, k ∈ dkeys (s.1) -> k ∈ dkeys (s'.1)) /\ (forall x, x ∈ s'.2 -> entry_ok (s'.1) un x).
Proof.
  revert s. induction l as [|kv l IH]; intros s Hl Hun Hw Hs; cbn [rfold].
  - by intros [= <-].
  - destruct (dep_step nets set_eqs mx un o m s kv) as [s1|] eqn:E1; [|done]. intros E.
    assert (dget set_eqs (kv.1) = Some (kv.2)) as Hkv by (apply Hl; by left).
    destruct (dep_step_ok mx un o m s kv s1) as (A1 & A2 & A3); try done. { apply elem_of_dkeys. by eexists. }
    destruct (IH s1) as (B1 & B2 & B3); try done. { intros kv' ?. apply Hl. by right. } split; [done|]. split; [auto|done].
Qed.
Lemma un_ok mx un d s' : NoDup (dkeys set_eqs) -> wfd d -> rfold (fun s om => rfold (dep_step nets set_eqs mx un (om.1) (om.2)) s set_eqs) (d, []) (orbit_multis un) = Ok s' ->
  wfd (s'.1) /\ (forall k, k ∈ dkeys d -> k ∈ dkeys (s'.1)) /\ (forall x, x ∈ s'.2 -> entry_ok (s'.1) un x).
Proof.
  intros Hnd Hw. assert (forall l s, (forall om, om ∈ l -> orbits2 un ≡ₚ [om.1; om.2]) -> wfd (s.1) -> (forall x, x ∈ s.2 -> entry_ok (s.1) un x) ->
    rfold (fun s om => rfold (dep_step nets set_eqs mx un (om.1) (om.2)) s set_eqs) s l = Ok s' ->
    wfd (s'.1) /\ (forall k, k ∈ dkeys (s.1) -> k ∈ dkeys (s'.1)) /\ (forall x, x ∈ s'.2 -> entry_ok (s'.1) un x)) as H.
  { induction l as [|om l IH]; intros s Hl Hw' Hs; cbn [rfold]; [by intros [= <-]|].
    destruct (rfold (dep_step nets set_eqs mx un (om.1) (om.2)) s set_eqs) as [s1|] eqn:E1; [|done]. intros E.
    destruct (dep_fold_ok mx un (om.1) (om.2) set_eqs s s1) as (A1 & A2 & A3); try done. { intros [k v] Hkv. by apply dget_elem_of. } { apply Hl. by left. }
    destruct (IH s1) as (B1 & B2 & B3); try done. { intros om' ?. apply Hl. by right. } split; [done|]. split; [auto|done]. }
  intros E. apply (H (orbit_multis un) (d, [])); try done.
  - intros om. destruct un as [a b|a]; cbn; intros Hom; repeat (apply elem_of_cons in Hom as [->|Hom]; [cbn; permS|]); by apply elem_of_nil in Hom.
  - intros x Hx. by apply elem_of_nil in Hx.
Qed.
Lemma eq_network_ok mx und d : NoDup (dkeys set_eqs) -> (forall k, k ∈ und -> k ∈ U) -> eq_network nets set_eqs und mx = Ok d ->
  wfd d /\ forall k, k ∈ und -> DEq k ∈ dkeys d.
Proof.
  intros Hnd Hund. unfold eq_network. assert (forall l (d0 : depnet), (forall k, k ∈ l -> k ∈ U) -> wfd d0 -> rfold (fun (d : depnet) un =>
    let? s := rfold (fun s om => rfold (dep_step nets set_eqs mx un (om.1) (om.2)) s set_eqs) (d, []) (orbit_multis un) in Ok (dset (s.1) (DEq un) (s.2))) d0 l = Ok d ->
    wfd d /\ (forall k, k ∈ dkeys d0 -> k ∈ dkeys d) /\ forall k, k ∈ l -> DEq k ∈ dkeys d) as H.
  { induction l as [|un l IH]; intros d0 Hl Hw; cbn [rfold].
    - intros [= <-]. split; [done|]. split; [done|]. intros k Hk. by apply elem_of_nil in Hk.
    - destruct (rfold _ (d0, []) (orbit_multis un)) as [s1|] eqn:E1; [|done]. cbn [rbind]. intros E.
      destruct (un_ok mx un d0 s1 Hnd Hw E1) as (A1 & A2 & A3).
      destruct (IH (dset (s1.1) (DEq un) (s1.2))) as (B1 & B2 & B3); try done.
      + intros k Hk. apply Hl. by right.
      + apply wfd_set; [done|apply keys_dset|]. split; [apply Hl; by left|]. intros s Hs. eapply entry_mono; [|by apply A3]. apply keys_dset.
      + split; [done|]. split; [intros k Hk; apply B2, keys_dset, A2, Hk|]. intros k [->|Hk]%elem_of_cons; [|by apply B3]. apply B2. apply elem_of_dkeys_dset. by left. }
  intros E. destruct (H und []) as (H1 & H2 & H3); try done. split; [apply NoDup_nil_2|]. intros key sets. done.
Qed.
Lemma more_orbits_ok n layers eq os d d' : eq ∈ dkeys set_eqs -> wfd d -> more_orbits nets set_eqs n layers eq d os = Ok d' -> wfd d' /\ forall k, k ∈ dkeys d -> k ∈ dkeys d'.
Proof.
  intros Hk. revert d. induction os as [|o os IH]; intros d Hw; cbn [more_orbits]; [by intros [= <-]|].
  destruct (too_many_nodes eq o n); [by intros [= <-]|]. destruct (orbit_in_layers nets layers o) as [b|]; [|done]. cbn [rbind]. destruct b; [|by apply IH].
  destruct (three_orbit_equations nets set_eqs eq o d) as [[d1 k1]|] eqn:E1; [|done]. cbn [rbind fst]. intros E.
  destruct (three_ok eq o d d1 k1 Hk Hw E1) as (A1 & A2 & _). destruct (IH d1 A1 E) as [B1 B2]. split; [done|auto].
Qed.
Lemma more_triples_ok n layers ol d d' : wfd d -> more_triples nets set_eqs n layers ol d = Ok d' -> wfd d' /\ forall k, k ∈ dkeys d -> k ∈ dkeys d'.
Proof.
  unfold more_triples. set (f := fun (d : depnet) eq => _).
  assert (forall d0 d2 eq, eq ∈ dkeys set_eqs -> wfd d0 -> f d0 eq = Ok d2 -> wfd d2 /\ forall k, k ∈ dkeys d0 -> k ∈ dkeys d2) as Hf.
  { intros d0 d2 eq Hk Hw. unfold f. cbn [rfold]. destruct (dget ol 2) as [os2|]; [|done]. destruct (more_orbits nets set_eqs n layers eq d0 os2) as [d1|] eqn:E1; [|done].
    destruct (dget ol 3) as [os3|]; [|done]. destruct (more_orbits nets set_eqs n layers eq d1 os3) as [d2'|] eqn:E2; [|done]. intros [= <-].
    destruct (more_orbits_ok n layers eq os2 d0 d1 Hk Hw E1) as [A1 A2]. destruct (more_orbits_ok n layers eq os3 d1 d2' Hk A1 E2) as [B1 B2]. split; [done|auto]. }
  assert (forall l d, (forall k, k ∈ l -> k ∈ dkeys set_eqs) -> wfd d -> rfold f d l = Ok d' -> wfd d' /\ forall k, k ∈ dkeys d -> k ∈ dkeys d') as H.
  { induction l as [|eq l IH]; intros d0 Hl Hw; [by intros [= <-]|]. cbn [rfold]. destruct (f d0 eq) as [d2|] eqn:E2; [|done].
    destruct (Hf d0 d2 eq) as [B1 B2]; [apply Hl; by left|done..|]. 
    intros E. destruct (IH d2) as [C1 C2]; try done. { intros k ?. apply Hl. by right. } split; [done|auto]. }
  intros Hw E. by apply (H (dkeys set_eqs)).
Qed.
End dep.
