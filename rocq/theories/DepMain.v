(** * Independent equations on given layers: the whole computation *)
From stdpp Require Import prelude relations.
From Verif Require Import Base Net NetEdges Supra TransFacts TransFacts2 Samp SampFacts Graphlet GraphletSpec GraphletFacts SccFacts OrbitEq OrbitFacts Indep IndepSpec IndepFacts RedFacts DepFacts.
Local Open Scope nat_scope.

Section close.
Context (set_eqs : dict eqkey (list orbit)) (U : list eqkey).
Hypothesis HU : forall k, k ∈ U -> k ∈ dkeys set_eqs.
Lemma set_all (l : list eqkey) (d : depnet) : NoDup (dkeys d) ->
  let d' := foldl (fun d k => dset d (DEq k) []) d l in
  NoDup (dkeys d') /\ (forall v, v ∈ dkeys d' <-> v ∈ dkeys d \/ exists k, v = DEq k /\ k ∈ l) /\
  (forall k, k ∈ l -> dget d' (DEq k) = Some []) /\ (forall v, (forall k, v = DEq k -> k ∉ l) -> dget d' v = dget d v).
Proof.
  revert d. induction l as [|a l IH]; intros d Hn; cbn [foldl].
  - split_and!; [done| |intros k Hk; by apply elem_of_nil in Hk|done]. intros v. split; [by left|]. intros [?|(k & _ & Hk)]; [done|by apply elem_of_nil in Hk].
  - destruct (IH (dset d (DEq a) [])) as (H1 & H2 & H3 & H4); [by apply NoDup_dset|]. split_and!; [done| | |].
    + intros v. rewrite H2, elem_of_dkeys_dset. split.
      * intros [[->|?]|(k & -> & Hk)]; [right; exists a; split; [done|by left]|by left|right; exists k; split; [done|by right]].
      * intros [?|(k & -> & [->|Hk]%elem_of_cons)]; [auto|by left; left|right; by exists k].
    + intros k Hk. destruct (decide (k ∈ l)) as [Hl|Hl]; [by apply H3|]. rewrite H4 by (by intros ? [= <-]).
      apply elem_of_cons in Hk as [->|Hk]; [|done]. by rewrite dget_dset_eq.
    + intros v Hv. rewrite H4; [|intros k -> Hk; apply (Hv k); [done|by right]]. apply dget_dset_ne. intros ->. apply (Hv a); [done|by left].
Qed.
Lemma close_ok ind und (d : depnet) : wfd set_eqs U d -> (forall k, k ∈ U -> k ∈ und) -> ind ++ und ≡ₚ dkeys set_eqs -> (forall k, k ∈ und -> DEq k ∈ dkeys d) ->
  exists ind' d', close_net ind und d = Ok (ind', d') /\ NoDup (dkeys d') /\ (forall k, k ∈ dkeys set_eqs -> DEq k ∈ dkeys d') /\
    (forall v, v ∈ dkeys d -> v ∈ dkeys d') /\
    forall v sets, dget d' v = Some sets -> (exists k, v = DEq k /\ k ∈ dkeys set_eqs /\ sets = []) \/ dget d v = Some sets.
Proof.
  intros [Hn Hw] Hund Hsplit Hd. unfold close_net. set (f := fun (s : list eqkey * list eqkey) (kv : depkey * list (list depkey)) => _).
  assert (forall l s, NoDup (l.*1) -> (forall kv, kv ∈ l -> length (kv.2) = 0 -> exists k, kv.1 = DEq k /\ k ∈ s.2 /\ k ∈ und) ->
    exists s', rfold f s l = Ok s' /\ (forall k, k ∈ s.1 -> k ∈ s'.1) /\ forall k, k ∈ s'.1 -> k ∈ s.1 \/ k ∈ und) as H.
  { induction l as [|[key sets] l IH]; intros s Hnd Hl; cbn [rfold]; [exists s; split_and!; auto|].
    cbn [fmap list_fmap fst] in Hnd. apply NoDup_cons in Hnd as [Hk Hnd]. unfold f at 1. cbn [fst snd].
    destruct (decide (length sets = 0)) as [E0|E0].
    - destruct (Hl (key, sets)) as (k & E & Hks & Hku); [by left|done|]. cbn in E. subst key. rewrite decide_True by done.
      destruct (IH (sadd k (s.1), sdiff (s.2) [k])) as (s' & E' & H1 & H2); [done| |].
      + intros kv Hkv E1. destruct (Hl kv) as (k' & E' & Hks' & Hku'); [by right|done|]. exists k'. split; [done|]. split; [|done]. cbn. apply elem_of_sdiff. split; [done|].
        intros ->%elem_of_list_singleton. apply Hk. rewrite <- E'. by apply elem_of_list_fmap_1.
      + exists s'. split; [done|]. cbn [fst] in *. split; [intros k' ?; apply H1, elem_of_sadd; by right|]. intros k' [Hk'|?]%H2; [|by right].
        apply elem_of_sadd in Hk' as [->|?]; [by right|by left].
    - apply IH; [done|]. intros kv Hkv. apply Hl. by right. }
  destruct (H d (ind, und)) as (s' & Es & H1 & H2).
  { done. } { intros [key sets] Hkv E0. apply dget_elem_of in Hkv; [|done]. cbn in *. specialize (Hw _ _ Hkv). destruct key as [k|a b c|]; [|destruct Hw as [Hw _]; by destruct sets|done].
    exists k. split; [done|]. split; apply Hund, Hw. }
  rewrite Es. cbn [rbind]. eexists _, _. split; [done|]. destruct (set_all (s'.1) d Hn) as (A1 & A2 & A3 & A4). split_and!.
  - done.
  - intros k Hk. apply A2. rewrite <- Hsplit in Hk. apply elem_of_app in Hk as [Hk|Hk]; [right; exists k; split; [done|by apply H1]|left; by apply Hd].
  - intros v Hv. apply A2. by left.
  - intros v sets E. destruct (decide (v ∈ DEq <$> s'.1)) as [Hv|Hv].
    + apply elem_of_list_fmap in Hv as (k & -> & Hk). left. exists k. split; [done|]. rewrite A3 in E by done. split; [|congruence].
      rewrite <- Hsplit. apply elem_of_app. by apply H2 in Hk.
    + right. rewrite A4 in E; [done|]. intros k -> Hk. apply Hv. by apply elem_of_list_fmap_1.
Qed.
Lemma chosen_sound (d d' : depnet) net : wfd set_eqs U d -> NoDup (dkeys d') -> (forall k, k ∈ dkeys set_eqs -> DEq k ∈ dkeys d') ->
  (forall v, v ∈ dkeys d -> v ∈ dkeys d') ->
  (forall v sets, dget d' v = Some sets -> (exists k, v = DEq k /\ k ∈ dkeys set_eqs /\ sets = []) \/ dget d v = Some sets) ->
  chosen d' net -> sound_net is_three net /\ forall v us, dget net v = Some us -> us <> [] -> justified set_eqs v us.
Proof.
  intros [Hn Hw] Hn' Hall Hsub Hget [Hkeys Hch].
  assert (forall v us, dget net v = Some us -> (us = [] /\ is_three v = false) \/ (justified set_eqs v us /\ forall u, u ∈ us -> is_three u = true -> u ∈ dkeys d)) as Hj.
  { intros v us E. assert (v ∈ dkeys d') as [ds Eds]%elem_of_dkeys by (rewrite <- Hkeys; apply elem_of_dkeys; by eexists).
    destruct (Hch v ds us Eds E) as [Hus|[-> ->]].
    - destruct (Hget v ds Eds) as [(k & -> & _ & ->)|E']; [by apply elem_of_nil in Hus|]. specialize (Hw _ _ E'). destruct v as [k|a b c|]; [| |done].
      + destruct Hw as [Hk Hw]. destruct (Hw us Hus) as [H1 H2]. right. split; [|done]. split; [by apply HU|done].
      + destruct Hw as [_ Hw]. right. split; [by apply Hw|]. destruct (Hw us Hus) as (eq & o & _ & _ & Hu). intros u [->|(k & -> & _)]%Hu; done.
    - left. split; [done|]. destruct (Hget v [] Eds) as [(k & -> & _)|E']; [done|]. specialize (Hw _ _ E'). destruct v as [k|a b c|]; [done| |done]. by destruct Hw. }
  split.
  - split; [by rewrite Hkeys|]. split.
    + intros v us u E Hu. rewrite Hkeys. destruct (Hj v us E) as [[-> _]|[Hv Ht]]; [by apply elem_of_nil in Hu|].
      destruct v as [k|a b c|]; [| |done].
      * destruct Hv as (_ & eq & os & o & m & x & y & z & H1 & _ & _ & _ & _ & H2). apply H2 in Hu as Hu'. destruct Hu' as [->|[(k' & -> & _ & Hp)| ->]].
        -- apply Hall, elem_of_dkeys. by eexists.
        -- apply Hall. by eapply product_known.
        -- apply Hsub. by apply Ht.
      * destruct Hv as (eq & o & H1 & _ & H2). apply H2 in Hu as Hu'. destruct Hu' as [->|(k' & -> & Hp)]; apply Hall; [done|by eapply product_known].
    + intros v us Hv E. destruct (Hj v us E) as [[_ ?]|[Hjv _]]; [congruence|]. destruct v as [k|a b c|]; [done| |done].
      destruct Hjv as (eq & o & H1 & _ & H2). split.
      * assert (DEq eq ∈ us) as Hin by (apply H2; by left). by intros ->; apply elem_of_nil in Hin.
      * intros [?|(k & ? & _)]%H2; done.
  - intros v us E Hne. by destruct (Hj v us E) as [[-> _]|[? _]].
Qed.
End close.

Section part.
Context (ord : list depkey -> list depkey) (ordk : list eqkey -> list eqkey).
Hypothesis Hord : forall l, ord l ≡ₚ l.
Hypothesis Hordk : forall l, ordk l ≡ₚ l.
Context (n : nat) (nets : dict nat (list mpx)) (ol : dict nat (list orbit)) (layers : list name) (eqs : dict eqkey (list orbit)).
Hypothesis Hnd : NoDup (dkeys eqs).
Lemma layer_ok I : n <> 3 -> layer_part ord ordk n nets ol layers eqs = Ok I ->
  exists net, (forall v us, dget net v = Some us -> us <> [] -> justified eqs v us) /\ (forall v, v ∈ I -> v ∈ dkeys net) /\
    (forall k, k ∈ dkeys eqs -> DEq k ∈ dkeys net) /\ (forall v, v ∈ dkeys net -> derived net I v) /\ (exists v, v ∈ dkeys net /\ v ∉ I) /\
    (forall v, v ∈ I -> dget net v = Some [] \/ on_cycle net v) /\ NoDup I.
Proof using Hord Hordk Hnd.
  intros H3. unfold layer_part. destruct (independent_ok eqs Hnd) as (ind & und & E & Hp & _). rewrite E. rewrite decide_False by done. clear E.
  destruct (eq_network nets eqs (ordk und) n) as [d1|] eqn:E1; [|done]. cbn [rbind].
  destruct (more_triples nets eqs n layers ol d1) as [d2|] eqn:E2; [|done]. cbn [rbind].
  assert (forall k, k ∈ und -> k ∈ dkeys eqs) as Hund by (intros k Hk; rewrite <- Hp; apply elem_of_app; by right).
  destruct (eq_network_ok nets eqs und n (ordk und) d1 Hnd) as [W1 K1]; [intros k; by rewrite Hordk|done|].
  destruct (more_triples_ok nets eqs und n layers ol d1 d2 W1 E2) as [W2 K2].
  destruct (close_ok eqs und ind und d2 W2) as (ind' & d' & Ec & N' & A' & S' & G'); [done|done|intros k Hk; apply K2, K1; by rewrite Hordk|].
  rewrite Ec. cbn [rbind snd]. clear Ec.
  destruct (all_ok is_three ord Hord d' N') as [[-> _]|(I0 & D0 & net & -> & Hch & Hsp & HD & _)]; [|done|].
  { intros net Hch. by destruct (chosen_sound eqs und Hund d2 d' net W2 N' A' S' G' Hch). }
  cbn [rbind]. intros [= <-]. destruct (chosen_sound eqs und Hund d2 d' net W2 N' A' S' G' Hch) as [Hs Hj].
  destruct (net_split is_three ord Hord net Hs) as (L & I & D & EL & Esp & Hpm & HDd & HI).
  destruct Hsp as (L' & EL' & Esp'). assert (L' = L) as -> by congruence. assert (I0 = I /\ D0 = D) as [-> ->] by (split; congruence).
  cbn [fst]. exists net. pose proof (proj1 Hs) as Hk. rewrite <- Hpm in Hk. apply NoDup_app in Hk as (Hk1 & Hk2 & Hk3). split_and!; try done.
  - intros v Hv. rewrite <- Hpm. apply elem_of_app. by left.
  - intros k Hk. rewrite (proj1 Hch). by apply A'.
  - intros v. rewrite <- Hpm. intros [Hv|Hv]%elem_of_app; [by constructor|by apply HDd].
  - destruct D as [|v D]; [done|]. exists v. split; [rewrite <- Hpm; apply elem_of_app; right; by left|]. intros Hv. apply (Hk2 v Hv). by left.
Qed.
End part.

(** ** Triples with a repeated orbit *)
Section fail.
Context (nets : dict nat (list mpx)) (eqs : dict eqkey (list orbit)) (a b : orbit).
Hypothesis Hab : a <> b.
Hypothesis Ha2 : a.1.1 = 2.
Hypothesis Hb2 : b.1.1 = 2.
Hypothesis Hin : KPair a b ∈ dkeys eqs.
Hypothesis Hout : KPair b a ∉ dkeys eqs.
Definition missing (d : depnet) : Prop := forall x y z, DThree x y z ∈ dkeys d -> ~ [x; y; z] ≡ₚ [a; b; b].
Ltac bnd E := match type of E with rbind ?m _ = _ => let x := fresh "s" in let F := fresh "F" in destruct m as [x|] eqn:F; [cbn [rbind] in E|done] end.
Lemma abb x y z : [x; y; z] ≡ₚ [a; b; b] -> (x = a /\ y = b /\ z = b) \/ (x = b /\ y = a /\ z = b) \/ (x = b /\ y = b /\ z = a).
Proof.
  intros H. assert (x ∈ [a; b; b]) as Hx by (rewrite <- H; by left). apply elem_of_cons in Hx as [->|Hx].
  - apply Permutation_cons_inv, perm2 in H. left. destruct H as [[-> ->]|[-> ->]]; done.
  - assert (x = b) as ->. { apply elem_of_cons in Hx as [->|Hx]; [done|]. by apply elem_of_list_singleton in Hx. }
    assert ([y; z] ≡ₚ [a; b]) as H'. { apply (Permutation_cons_inv (a := b)). rewrite H. apply perm_swap. }
    apply perm2 in H' as [[-> ->]|[-> ->]]; auto.
Qed.
Lemma three_sets_bad eq o l : eq ∈ dkeys eqs -> [(two_orbits eq).1; (two_orbits eq).2; o] ≡ₚ [a; b; b] ->
  three_sets nets eqs eq ((two_orbits eq).1) ((two_orbits eq).2) o <> Ok l.
Proof using Hab Ha2 Hb2 Hin Hout.
  intros Hk Hp E. apply abb in Hp. set (o1 := (two_orbits eq).1) in *. set (o2 := (two_orbits eq).2) in *. unfold three_sets in E.
  destruct Hp as [(E1 & E2 & E3)|[(E1 & E2 & E3)|(E1 & E2 & E3)]]; rewrite ?E1, ?E2, ?E3 in E.
  - rewrite decide_False in E by tauto. rewrite decide_False in E by done. rewrite decide_True in E by done. bnd E. bnd E. by apply subtrahend_err in F0.
  - destruct eq as [x y|x]; cbn in *; subst; [done|]. subst o2. congruence.
  - rewrite decide_False in E by (intros [_ ?]; congruence). rewrite decide_True in E by done. rewrite decide_False in E by lia. bnd E. by apply subtrahend_err in F.
Qed.
Lemma missing_perm d k : missing d -> k ∈ perms3 a b b -> k ∉ dkeys d.
Proof. intros Hm (x & y & z & -> & Hp)%perms3_ok Hk. by apply (Hm x y z Hk). Qed.
Lemma three_missing eq o d d' k : eq ∈ dkeys eqs -> missing d -> three_orbit_equations nets eqs eq o d = Ok (d', k) -> missing d'.
Proof using Hab Ha2 Hb2 Hin Hout.
  intros Hk Hm. unfold three_orbit_equations. cbn zeta. destruct (list_find _ _) as [[i k0]|] eqn:Ef; [by intros [= <- <-]|].
  intros E. bnd E. injection E as <- <-. intros x y z [[= -> -> ->]|Hx]%elem_of_dkeys_dset Hp; [|by apply (Hm x y z)].
  apply (three_sets_bad eq o s Hk); [|done]. rewrite <- Hp. permS.
Qed.
Lemma three_fails d r : missing d -> three_orbit_equations nets eqs (KPair a b) b d <> Ok r.
Proof using Hab Ha2 Hb2 Hin Hout.
  intros Hm. unfold three_orbit_equations. cbn [two_orbits fst snd]. cbn zeta. destruct (list_find _ _) as [[i k0]|] eqn:Ef.
  - apply list_find_Some in Ef as (Hi & Hk & _). apply elem_of_list_lookup_2 in Hi. by apply missing_perm in Hk.
  - intros E. bnd E. by apply (three_sets_bad (KPair a b) b s) in F.
Qed.
Lemma missing_eq d k sets : missing d -> missing (dset d (DEq k) sets).
Proof. intros Hm x y z [?|Hx]%elem_of_dkeys_dset; [done|by apply Hm]. Qed.
Lemma fold_inv {A B} (P : A -> Prop) (f : A -> B -> res A) l s s' : (forall s x s', x ∈ l -> P s -> f s x = Ok s' -> P s') -> P s -> rfold f s l = Ok s' -> P s'.
Proof.
  revert s. induction l as [|x l IH]; intros s Hf Hs; cbn [rfold]; [by intros [= <-]|]. destruct (f s x) as [s1|] eqn:E; [|done].
  apply IH; [intros s2 y s3 Hy; apply Hf; by right|]. eapply Hf; [by left|exact Hs|done].
Qed.
Lemma network_missing und mx d : eq_network nets eqs und mx = Ok d -> missing d.
Proof using Hab Ha2 Hb2 Hin Hout.
  unfold eq_network. apply (fold_inv missing); [|intros x y z Hx; by apply elem_of_nil in Hx]. intros d0 un d1 _ Hm E. bnd E. injection E as <-.
  apply missing_eq. revert F. apply (fold_inv (fun s : depnet * list (list depkey) => missing (s.1))); [|done]. intros s0 om s1 _ Hm0.
  apply (fold_inv (fun s : depnet * list (list depkey) => missing (s.1))); [|done]. intros s2 kv s3 Hkv Hm2. unfold dep_step.
  destruct (decide _); [|by intros [= <-]]. destruct (too_many_nodes _ _ _); [by intros [= <-]|]. intros E. bnd E. destruct s4 as [d' k].
  assert (missing d') as Hm'. { eapply three_missing; [|exact Hm2|exact F]. by apply elem_of_list_fmap_1. }
  bnd E. cbn [fst snd] in E. cbn zeta in E. destruct (decide _); apply okinj in E as <-; done.
Qed.
Context (n : nat) (layers : list name).
Lemma orbits_missing eq os d d' : eq ∈ dkeys eqs -> missing d -> more_orbits nets eqs n layers eq d os = Ok d' -> missing d'.
Proof using Hab Ha2 Hb2 Hin Hout.
  intros Hk. revert d. induction os as [|o os IH]; intros d Hm; cbn [more_orbits]; [by intros [= <-]|].
  destruct (too_many_nodes eq o n); [by intros [= <-]|]. destruct (orbit_in_layers nets layers o) as [[]|]; [|by apply IH|done]. cbn [rbind].
  destruct (three_orbit_equations nets eqs eq o d) as [[d1 k1]|] eqn:E1; [|done]. cbn [rbind fst]. apply IH. by eapply three_missing.
Qed.
Lemma orbits_fail os d d' : 4 <= n -> (forall o, o ∈ os -> o.1.1 = 2) -> b ∈ os -> orbit_in_layers nets layers b = Ok true -> missing d -> more_orbits nets eqs n layers (KPair a b) d os <> Ok d'.
Proof using Hab Ha2 Hb2 Hin Hout.
  intros Hn. revert d. induction os as [|o os IH]; intros d H2 Hb Hl Hm; [by apply elem_of_nil in Hb|]. cbn [more_orbits].
  assert (too_many_nodes (KPair a b) o n = false) as ->. { cbn. apply bool_decide_eq_false. rewrite Ha2, Hb2, (H2 o) by (by left). lia. }
  destruct (decide (o = b)) as [->|Hne].
  - rewrite Hl. cbn [rbind]. destruct (three_orbit_equations _ _ _ _ _) as [r|] eqn:E; [|done]. by apply three_fails in E.
  - apply elem_of_cons in Hb as [->|Hb]; [done|]. destruct (orbit_in_layers nets layers o) as [[]|]; [| |done]; cbn [rbind].
    + destruct (three_orbit_equations _ _ _ _ _) as [[d1 k1]|] eqn:E; [|done]. cbn [rbind fst]. apply IH; try done; [intros; apply H2; by right|]. by eapply three_missing.
    + apply IH; try done. intros; apply H2; by right.
Qed.
Lemma triples_fail ol os d d' : 4 <= n -> dget ol 2 = Some os -> (forall o, o ∈ os -> o.1.1 = 2) -> b ∈ os -> orbit_in_layers nets layers b = Ok true -> missing d ->
  more_triples nets eqs n layers ol d <> Ok d'.
Proof using Hab Ha2 Hb2 Hin Hout.
  intros Hn Hos H2 Hb Hl. unfold more_triples. set (f := fun (d : depnet) eq => _).
  assert (forall d0 d1 eq, eq ∈ dkeys eqs -> missing d0 -> f d0 eq = Ok d1 -> missing d1 /\ eq <> KPair a b) as Hf.
  { intros d0 d1 eq Hk Hm. unfold f. cbn [rfold]. rewrite Hos. destruct (more_orbits nets eqs n layers eq d0 os) as [d2|] eqn:E2; [|done].
    destruct (dget ol 3) as [os3|]; [|done]. destruct (more_orbits nets eqs n layers eq d2 os3) as [d3|] eqn:E3; [|done]. intros [= <-]. split.
    - eapply orbits_missing; [done| |exact E3]. by eapply orbits_missing.
    - intros ->. by apply orbits_fail in E2. }
  assert (forall l d, (forall k, k ∈ l -> k ∈ dkeys eqs) -> KPair a b ∈ l -> missing d -> rfold f d l <> Ok d') as H.
  { induction l as [|eq l IH]; intros d0 Hl' Hp Hm; [by apply elem_of_nil in Hp|]. cbn [rfold]. destruct (f d0 eq) as [d1|] eqn:E1; [|done].
    destruct (Hf d0 d1 eq) as [Hm1 Hne]; [apply Hl'; by left|done|done|]. apply IH; [intros; apply Hl'; by right| |done].
    apply elem_of_cons in Hp as [Hp|Hp]; [by destruct Hne|done]. }
  intros Hm. by apply H.
Qed.
End fail.
Lemma layer_fails ord ordk n nets ol layers eqs a b os I : NoDup (dkeys eqs) -> a <> b -> a.1.1 = 2 -> b.1.1 = 2 -> KPair a b ∈ dkeys eqs -> KPair b a ∉ dkeys eqs ->
  4 <= n -> dget ol 2 = Some os -> (forall o, o ∈ os -> o.1.1 = 2) -> b ∈ os -> orbit_in_layers nets layers b = Ok true ->
  layer_part ord ordk n nets ol layers eqs <> Ok I.
Proof.
  intros Hnd Hab Ha Hb Hin Hout Hn Hos H2 Hbo Hl. unfold layer_part. destruct (independent_ok eqs Hnd) as (ind & und & E & _). rewrite E. rewrite decide_False by lia.
  destruct (eq_network nets eqs (ordk und) n) as [d1|] eqn:E1; [|done]. cbn [rbind]. apply network_missing with (a := a) (b := b) in E1; try done.
  destruct (more_triples nets eqs n layers ol d1) as [d2|] eqn:E2; [|done]. by eapply (triples_fail nets eqs a b) in E2.
Qed.
