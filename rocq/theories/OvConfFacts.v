(** * Lemmas about networks with given overlap degrees *)
From Verif Require Export OvConf ConfFacts.
From Verif Require Import TransFacts MpxHist MpxIter PropsNet PropsTrans PropsConf.

(** A sorted pair of different names. *)
Definition can (p : name * name) : Prop := nsort (p.1) (p.2) = Ok p /\ p.1 <> p.2.
Lemma can_eq p q : can p -> can q -> sameq p q -> p = q.
Proof. intros [? _] [? _]. by apply nsort_canon. Qed.
Lemma nsort_can a b p : nsort a b = Ok p -> a <> b -> can p.
Proof. intros (Hp & Hc & _)%nsort_ok Hne. split; [done|]. destruct Hp as [-> | ->]; cbn [fst snd]; congruence. Qed.
(** [q] is one of the pairs [T], in either order. *)
Definition tk (T : list (name * name)) (q : name * name) : Prop := Exists (fun p => sameq p q) T.
Global Instance tk_dec T q : Decision (tk T q).
Proof. unfold tk. apply _. Defined.
Lemma tk_iff T q : tk T q <-> exists p, p ∈ T /\ sameq p q.
Proof. unfold tk. rewrite Exists_exists. done. Qed.
Lemma tk_sameq T p q : sameq p q -> tk T p -> tk T q.
Proof. rewrite !tk_iff. intros Hs (t & Ht & Hp). exists t. split; [done|]. by eapply sameq_trans. Qed.

(** ** Weights, virtual weights and used edges *)
Definition REL (R V : name -> name -> Z) (T : list (name * name)) : Prop := forall x y, R x y = if decide (tk T (x, y)) then 0%Z else V x y.
Definition updl (R : name -> name -> Z) (ws : list (name * name * Z)) : name -> name -> Z :=
  foldl (fun R q => upd R ((q.1).1) ((q.1).2) (q.2)) R ws.
Lemma upd_ext R R' a b w : (forall x y, R x y = R' x y) -> forall x y, upd R a b w x y = upd R' a b w x y.
Proof. intros H x y. unfold upd. by rewrite H. Qed.
Lemma REL_upd R V T a b w : REL R V T -> ~ tk T (a, b) -> REL (upd R a b w) (upd V a b w) T.
Proof.
  intros H Ht x y. unfold upd. rewrite H. destruct (decide (sameq (a, b) (x, y))) as [Hs|]; [|done].
  rewrite decide_False; [done|]. intros Hx. apply Ht. eapply tk_sameq; [|done]. by apply sameq_sym.
Qed.
Section used.
Variables (U0 : list (name * name)).
Definition USED (R : name -> name -> Z) (U : list (name * name)) : Prop := forall p, p ∈ U <-> p ∈ U0 \/ (can p /\ R (p.1) (p.2) <> 0%Z).
Definition DISJ (R : name -> name -> Z) : Prop := forall p, p ∈ U0 -> R (p.1) (p.2) = 0%Z.
Hypothesis HU0 : forall p, p ∈ U0 -> can p.
Lemma rem_ok R U p : USED R U -> DISJ R -> can p -> R (p.1) (p.2) <> 0%Z ->
  exists U', urem p U = Ok U' /\ USED (upd R (p.1) (p.2) 0) U' /\ DISJ (upd R (p.1) (p.2) 0).
Proof using HU0.
  intros HU HD Hc HR. unfold urem. rewrite decide_True by (apply HU; by right). eexists. split; [done|]. split.
  - intros q. rewrite elem_of_list_filter, (HU q). unfold upd. destruct (decide (sameq (p.1, p.2) (q.1, q.2))) as [Hs|Hs].
    + rewrite <- !surjective_pairing in Hs. split; [|intros [Hq|[_ ?]]; [|done]]; [intros [Hne [Hq|[Hq _]]]|]; exfalso.
      * apply Hne. symmetry. apply can_eq; auto.
      * apply Hne. symmetry. apply can_eq; auto.
      * assert (p = q) as -> by (apply can_eq; auto). by apply HR, HD.
    + split; [tauto|]. intros H. split; [|done]. intros ->. apply Hs, sameq_refl.
  - intros q Hq. unfold upd. destruct (decide _); [done|by apply HD].
Qed.
Lemma add_ok R U a b p : USED R U -> DISJ R -> can p -> sameq (a, b) p -> p ∉ U0 -> USED (upd R a b 1) (sadd p U) /\ DISJ (upd R a b 1).
Proof using HU0.
  intros HU HD Hc Hs Hp. split.
  - intros q. rewrite elem_of_sadd, (HU q). unfold upd. destruct (decide (sameq (a, b) (q.1, q.2))) as [Hq|Hq].
    + rewrite <- surjective_pairing in Hq. assert (sameq p q) as Hpq by (eapply sameq_trans; [by apply sameq_sym|done]). split.
      * intros [->|[?|[? _]]]; [by right|by left|by right].
      * intros [?|[Hcq _]]; [tauto|]. left. symmetry. by apply can_eq.
    + rewrite <- surjective_pairing in Hq. split; [|tauto]. intros [->|?]; [done|done].
  - intros q Hq. unfold upd. destruct (decide _) as [Hs'|]; [|by apply HD]. exfalso. rewrite <- surjective_pairing in Hs'. apply Hp.
    assert (p = q) as ->; [|done]. apply can_eq; auto. eapply sameq_trans; [by apply sameq_sym|done].
Qed.
Lemma rems_ok T : forall ps R V U, REL R V T -> USED R U -> DISJ R -> (forall p, p ∈ ps -> can p /\ R (p.1) (p.2) <> 0%Z /\ ~ tk T p) -> NoDup ps ->
  exists U', urems ps U = Ok U' /\ REL (updl R ((fun p => (p, 0%Z)) <$> ps)) (updl V ((fun p => (p, 0%Z)) <$> ps)) T /\
    USED (updl R ((fun p => (p, 0%Z)) <$> ps)) U' /\ DISJ (updl R ((fun p => (p, 0%Z)) <$> ps)).
Proof using HU0.
  induction ps as [|p ps IH]; intros R V U Hr HU HD Hp Hnd; [by exists U|]. apply NoDup_cons in Hnd as [Hn Hnd].
  destruct (Hp p ltac:(left)) as (Hc & HR & Ht). destruct (rem_ok R U p HU HD Hc HR) as (U1 & E1 & HU1 & HD1).
  unfold urems, updl. cbn [rfold fmap list_fmap foldl fst snd]. rewrite E1. apply IH; [|done|done| |done].
  - apply REL_upd; [done|]. by rewrite <- surjective_pairing.
  - intros q Hq. destruct (Hp q ltac:(by right)) as (Hcq & HRq & Htq). split; [done|]. split; [|done]. unfold upd. rewrite decide_False; [done|].
    rewrite <- !surjective_pairing. intros Hs. assert (p = q) as -> by by apply can_eq. done.
Qed.
Lemma adds_ok T : (forall p, p ∈ T -> p ∈ U0) -> forall es R V U, REL R V T -> USED R U -> DISJ R ->
  (forall e, e ∈ es -> can (e.2) /\ sameq (e.1) (e.2) /\ e.2 ∉ U0) ->
  REL (updl R ((fun e => (e.1, 1%Z)) <$> es)) (updl V ((fun e => (e.1, 1%Z)) <$> es)) T /\
  USED (updl R ((fun e => (e.1, 1%Z)) <$> es)) (uadds (es.*2) U) /\ DISJ (updl R ((fun e => (e.1, 1%Z)) <$> es)).
Proof using HU0.
  intros HT. induction es as [|[[a b] p] es IH]; intros R V U Hr HU HD He; [done|].
  destruct (He _ ltac:(left)) as (Hc & Hs & Hp). cbn [fst snd] in Hc, Hs, Hp. unfold updl, uadds. cbn [fmap list_fmap foldl fst snd].
  destruct (add_ok R U a b p HU HD Hc Hs Hp) as [HU1 HD1]. apply IH; [|done|done|intros; apply He; by right].
  apply REL_upd; [done|]. intros (t & Ht & Hst)%tk_iff. apply Hp. assert (t = p) as <-; [|by apply HT]. apply can_eq; auto. eapply sameq_trans; done.
Qed.
Lemma USED_ext R R' U : (forall x y, R' x y = R x y) -> USED R U -> USED R' U.
Proof. intros H HU p. by rewrite (HU p), H. Qed.
Lemma DISJ_ext R R' : (forall x y, R' x y = R x y) -> DISJ R -> DISJ R'.
Proof. intros H HU p. rewrite H. apply HU. Qed.
End used.
Lemma REL_ext R R' V V' T : (forall x y, R' x y = R x y) -> (forall x y, V' x y = V x y) -> REL R V T -> REL R' V' T.
Proof. intros H H' HU x y. by rewrite H, H', HU. Qed.

(** ** The code against the configuration model of one layer *)
Section sim.
Variables (K Zr : name -> Prop) (D : name -> nat) (L : nat) (U0 : list (name * name)).
Hypothesis HU0 : forall p, p ∈ U0 -> can p.
Local Notation VInv := (Inv K Zr D L).
(** [v] is the state of the configuration model in which the edges that other
    combinations have are present, too. *)
Record SIM (st : ost) (v : cst) : Prop := {
  s_slots : c_slots (o_c st) = c_slots v;
  s_idx : c_idx (o_c st) = c_idx v;
  s_self : c_self (o_c st) = c_self v;
  s_multi : c_multi v = c_multi (o_c st) ++ o_taken st;
  s_net : NET K Zr (c_net (o_c st));
  s_rel : REL (RR (c_net (o_c st))) (RR (c_net v)) (o_taken st);
  s_used : USED U0 (RR (c_net (o_c st))) (o_used st);
  s_disj : DISJ U0 (RR (c_net (o_c st)));
  s_tk : forall p, p ∈ o_taken st -> p ∈ U0
}.
Lemma slot_eq c v e : c_slots c = c_slots v -> slot c e = slot v e.
Proof. intros H. unfold slot. by rewrite H. Qed.
Lemma CONS_sym V sl x y : CONS V sl -> x <> y -> V x y = V y x.
Proof. intros H Hne. rewrite (H x y Hne), (H y x) by done. rewrite (cnt_sameq (x, y) (y, x)); [done|]. by right. Qed.
Lemma fresh M S st v a b e : SIM st v -> VInv M S v -> nsort a b = Ok e -> a <> b -> e ∉ o_used st ->
  can e /\ sameq (a, b) e /\ e ∉ U0 /\ RR (c_net v) a b = 0%Z.
Proof using HU0.
  intros Hs Hi He Hne Hu. pose proof (nsort_can _ _ _ He Hne) as Hc. pose proof (nsort_sameq _ _ _ He) as Hq. split; [done|]. split; [by apply sameq_sym|].
  assert (e ∉ U0) as H0. { intros H. apply Hu, (s_used _ _ Hs). by left. } split; [done|].
  assert (RR (c_net (o_c st)) (e.1) (e.2) = 0%Z) as HR.
  { destruct (decide (RR (c_net (o_c st)) (e.1) (e.2) = 0%Z)) as [|Hn]; [done|]. exfalso. apply Hu, (s_used _ _ Hs). by right. }
  rewrite (s_rel _ _ Hs), <- surjective_pairing, decide_False in HR.
  - destruct (nsort_ok _ _ _ He) as [[-> | ->] _]; cbn [fst snd] in HR; [done|]. rewrite (CONS_sym _ (c_slots v)); [done|by apply (v_cons _ _ _ _ _ _ _ Hi)|done].
  - intros (t & Ht & Hst)%tk_iff. apply H0. pose proof (s_tk _ _ Hs t Ht) as Ht0. assert (t = e) as <-; [|done]. apply can_eq; auto.
Qed.
Lemma single M S st v i q p : SIM st v -> VInv M S v -> c_slots v !! i = Some q -> nsort (q.1) (q.2) = Ok p -> q.1 <> q.2 ->
  p ∉ c_multi (o_c st) -> p ∉ o_taken st -> can p /\ RR (c_net (o_c st)) (p.1) (p.2) = 1%Z /\ ~ tk (o_taken st) p.
Proof using HU0.
  intros Hs Hi Hq Hp Hne Hm Ht. pose proof (nsort_can _ _ _ Hp Hne) as Hc. split; [done|].
  assert (~ tk (o_taken st) p) as Hn.
  { intros (t & Htt & Hst)%tk_iff. pose proof (s_tk _ _ Hs t Htt) as Ht0. assert (t = p) as -> by (apply can_eq; auto). done. }
  split; [|done]. rewrite (s_rel _ _ Hs), <- surjective_pairing, decide_False by done.
  rewrite (v_cons _ _ _ _ _ _ _ Hi) by apply Hc. rewrite <- surjective_pairing.
  rewrite (single_edge _ _ _ _ _ _ _ _ _ _ Hi Hq Hp); [by rewrite decide_True by lia| |done].
  rewrite (s_multi _ _ Hs), elem_of_app. tauto.
Qed.

Lemma ov_self_try_spec M S st v node si i1 i2 : SIM st v -> VInv M ((node, si) :: S) v -> big M v ->
  i1 <> i2 -> i1 < length (c_slots v) -> i2 < length (c_slots v) ->
  match ov_self_try st node si i1 i2 with
  | Ok (Some st') => exists v', SIM st' v' /\ VInv M S v' /\ c_multi v' = c_multi v /\ c_idx v' = c_idx v /\ o_taken st' = o_taken st
  | Ok None => True
  | Err e => terr K e
  end.
Proof using HU0.
  intros Hs Hi Hb Hij H1 H2. pose proof (self_try_spec K Zr D L M S v node si i1 i2 Hi Hb Hij H1 H2) as Hold.
  unfold ov_self_try. unfold self_try in Hold. rewrite !(slot_eq (o_c st) v) by apply Hs.
  destruct (slot_ok v i1 H1) as (q1 & E1 & Q1). destruct (slot_ok v i2 H2) as (q2 & E2 & Q2). rewrite E1, E2 in *. cbn [rbind] in *.
  destruct (nsort (q1.1) (q1.2)) as [[n2 n3]|e] eqn:F1; cbn [rbind] in *; [|done].
  destruct (nsort (q2.1) (q2.2)) as [[n4 n5]|e] eqn:F2; cbn [rbind] in *; [|done].
  destruct (decide (NoDup _)) as [Hnd|]; [|done].
  destruct (decide ((n2, n3) ∉ c_multi (o_c st) /\ _)) as [(M1 & M2 & T1 & T2)|]; [|done].
  rewrite decide_True in Hold by (rewrite (s_multi _ _ Hs), !elem_of_app; tauto).
  pose proof (v_net _ _ _ _ _ _ _ Hi) as Hvn. pose proof (s_net _ _ Hs) as Hon. rewrite !(getw_ok K Zr) in Hold by done. cbn [rbind] in Hold.
  pose proof (sorted_pair_keys _ _ _ _ _ _ _ _ _ _ Hi Q1 F1) as [Kn2 Kn3]. pose proof (sorted_pair_keys _ _ _ _ _ _ _ _ _ _ Hi Q2 F2) as [Kn4 Kn5]. cbn [fst snd] in Kn2, Kn3, Kn4, Kn5.
  pose proof (NoDup5 _ _ _ _ _ Hnd) as (_ & _ & _ & _ & Hq1 & _ & _ & _ & _ & Hq2).
  pose proof (orient5 _ _ _ _ _ Hnd F1 F2) as (N1 & N2 & N3 & N4 & N5 & N6 & N7 & N8 & N9 & N10)%NoDup5. cbn [fst snd] in N1, N2, N3, N4, N5, N6, N7, N8, N9, N10.
  pose proof (proj1 (v_selfs _ _ _ _ _ _ _ Hi node si) ltac:(left)) as Qs.
  assert (K node) as Kn by (destruct (v_keys _ _ _ _ _ _ _ Hi (node, node)); [by eapply elem_of_list_lookup_2|done]).
  destruct (nsort node n2) as [e1|e] eqn:G1; cbn [rbind]; [|by apply (nsort_terr K _ _ _ Kn Kn2)].
  destruct (nsort node n4) as [e2|e] eqn:G2; cbn [rbind]; [|by apply (nsort_terr K _ _ _ Kn Kn4)].
  destruct (nsort n3 n5) as [e3|e] eqn:G3; cbn [rbind]; [|by apply (nsort_terr K _ _ _ Kn3 Kn5)].
  destruct (decide (e1 ∉ o_used st /\ _)) as [(X1 & X2 & X3)|]; [|done].
  destruct (fresh _ _ _ _ _ _ _ Hs Hi G1 N1 X1) as (A1 & B1 & C1 & W1). destruct (fresh _ _ _ _ _ _ _ Hs Hi G2 N3 X2) as (A2 & B2 & C2 & W2).
  destruct (fresh _ _ _ _ _ _ _ Hs Hi G3 N9 X3) as (A3 & B3 & C3 & W3). rewrite decide_True in Hold by done.
  assert (forall q : name * name * Z, q ∈ [(n2, n3, 0%Z); (n4, n5, 0%Z); (node, n2, 1%Z); (node, n4, 1%Z); (n3, n5, 1%Z)] -> (q.1).1 <> (q.1).2 /\ K ((q.1).1) /\ K ((q.1).2)) as Hws.
  { intros q. rewrite !elem_of_cons, elem_of_nil. intros Hq. repeat destruct Hq as [-> | Hq]; [..|done]; cbn [fst snd]; done. }
  destruct (puts_ok K Zr _ (c_net v) Hvn Hws) as (nv & Ev & Hnv & HRv). destruct (puts_ok K Zr _ (c_net (o_c st)) Hon Hws) as (no & Eo & Hno & HRo).
  rewrite Ev in Hold. rewrite Eo. cbn [rbind] in Hold. cbn [rbind].
  destruct (single _ _ _ _ _ _ _ Hs Hi Q1 F1 Hq1 M1 T1) as (Ca & Ra & Ta). destruct (single _ _ _ _ _ _ _ Hs Hi Q2 F2 Hq2 M2 T2) as (Cb & Rb & Tb).
  destruct (rems_ok U0 HU0 (o_taken st) [(n2, n3); (n4, n5)] _ _ _ (s_rel _ _ Hs) (s_used _ _ Hs) (s_disj _ _ Hs)) as (U1 & EU & Hr1 & Hu1 & Hd1).
  { intros p. rewrite !elem_of_cons, elem_of_nil. intros [->|[->|[]]]; split_and!; try done; congruence. }
  { apply NoDup_cons. rewrite elem_of_list_singleton. split; [congruence|apply NoDup_singleton]. }
  rewrite EU. cbn [rbind]. eexists. split; [|split; [apply Hold|done]].
  destruct (adds_ok U0 HU0 (o_taken st) (s_tk _ _ Hs) [((node, n2), e1); ((node, n4), e2); ((n3, n5), e3)] _ _ _ Hr1 Hu1 Hd1) as (Hr2 & Hu2 & Hd2).
  { intros e. rewrite !elem_of_cons, elem_of_nil. intros [->|[->|[->|[]]]]; done. }
  split; cbn [o_c o_used o_taken c_net c_slots c_idx c_self c_multi]; try apply Hs.
  - by rewrite (s_slots _ _ Hs).
  - done.
  - by eapply REL_ext; [exact HRo|exact HRv|].
  - by eapply USED_ext; [exact HRo|].
  - by eapply DISJ_ext; [exact HRo|].
Qed.
Lemma ov_self_loop_spec M S node si fuel : forall st v rnd, SIM st v -> VInv M ((node, si) :: S) v -> big M v ->
  match ov_self_loop fuel st node si rnd with
  | Ok (st', _) => exists v', SIM st' v' /\ VInv M S v' /\ c_multi v' = c_multi v /\ c_idx v' = c_idx v /\ o_taken st' = o_taken st
  | Err e => cerr K L e
  end.
Proof using HU0.
  induction fuel as [|f IH]; intros st v rnd Hs H Hb; cbn [ov_self_loop]; [by left|].
  assert (c_slots (o_c st) = c_slots v) as Es by apply Hs.
  pose proof (draw_spec K L (o_c st) rnd ltac:(rewrite Es; by apply (v_len _ _ _ _ _ _ _ H))) as Hd. destruct (draw (o_c st) rnd) as [[[i1 i2] rnd']|e]; cbn [rbind]; [|done].
  rewrite Es in Hd. destruct Hd as (He & H1 & H2). pose proof (ov_self_try_spec M S st v node si i1 i2 Hs H Hb He H1 H2) as Ht.
  destruct (ov_self_try st node si i1 i2) as [[st'|]|e]; cbn [rbind]; [done| |right; by left]. by apply IH.
Qed.
Lemma ov_self_phase_spec M : forall S st v rnd, SIM st v -> VInv M S v -> big M v ->
  match rfold (fun s t => ov_self_loop (Datatypes.S (length (s.2))) (s.1) (t.1) (t.2) (s.2)) (st, rnd) S with
  | Ok (st', _) => exists v', SIM st' v' /\ VInv M [] v' /\ c_multi v' = c_multi v /\ c_idx v' = c_idx v /\ o_taken st' = o_taken st
  | Err e => cerr K L e
  end.
Proof using HU0.
  induction S as [|[x si] S IH]; intros st v rnd Hs H Hb; cbn [rfold fst snd]; [by exists v|].
  pose proof (ov_self_loop_spec M S x si (Datatypes.S (length rnd)) st v rnd Hs H Hb) as Hl.
  destruct (ov_self_loop _ st x si rnd) as [[st' rnd']|e]; [|done]. destruct Hl as (v' & Hs' & H' & Em & Ei & Et).
  assert (big M v') as Hb'. { intros p Hp. rewrite Ei. by apply Hb. }
  specialize (IH st' v' rnd' Hs' H' Hb'). destruct (rfold _ _ S) as [[st2 r2]|e]; [|done]. destruct IH as (v2 & Hs2 & H2 & Em2 & Ei2 & Et2).
  exists v2. split_and!; [done|done|congruence..].
Qed.

Lemma ov_multi_try_spec M st v n1 n2 i1 i2 : SIM st v -> VInv ((n1, n2) :: M) [] v -> big ((n1, n2) :: M) v -> two_left (n1, n2) v ->
  (n1, n2) ∉ o_taken st -> i1 <> i2 -> i1 < length (c_slots v) -> i2 < length (c_slots v) ->
  match ov_multi_try st n1 n2 i1 i2 with
  | Ok (Some st') => exists v', SIM st' v' /\ VInv ((n1, n2) :: M) [] v' /\ o_taken st' = o_taken st /\
      (exists l l', dget (c_idx v) (n1, n2) = Some l /\ dget (c_idx v') (n1, n2) = Some l' /\ length l = length l' + 2) /\
      (forall p, p <> (n1, n2) -> dget (c_idx v') p = dget (c_idx v) p)
  | Ok None => True
  | Err e => terr K e
  end.
Proof using HU0.
  intros Hs Hi Hb Htl Hnt Hij H1 H2. pose proof (multi_try_spec K Zr D L M v n1 n2 i1 i2 Hi Hb Htl Hij H1 H2) as Hold.
  unfold ov_multi_try. unfold multi_try in Hold. rewrite !(slot_eq (o_c st) v) by apply Hs.
  destruct (slot_ok v i1 H1) as (q1 & E1 & Q1). destruct (slot_ok v i2 H2) as (q2 & E2 & Q2). rewrite E1, E2 in *. cbn [rbind] in *.
  destruct (nsort (q1.1) (q1.2)) as [[n3 n4]|e] eqn:F1; cbn [rbind] in *; [|done].
  destruct (nsort (q2.1) (q2.2)) as [[n5 n6]|e] eqn:F2; cbn [rbind] in *; [|done].
  destruct (decide (NoDup _)) as [Hnd|]; [|done].
  destruct (decide ((n3, n4) ∉ c_multi (o_c st) /\ _)) as [(M1 & M2 & T1 & T2)|]; [|done].
  rewrite decide_True in Hold by (rewrite (s_multi _ _ Hs), !elem_of_app; tauto).
  pose proof (v_net _ _ _ _ _ _ _ Hi) as Hvn. pose proof (s_net _ _ Hs) as Hon. rewrite !(getw_ok K Zr) in Hold by done. cbn [rbind] in Hold.
  pose proof (sorted_pair_keys _ _ _ _ _ _ _ _ _ _ Hi Q1 F1) as [Kn3 Kn4]. pose proof (sorted_pair_keys _ _ _ _ _ _ _ _ _ _ Hi Q2 F2) as [Kn5 Kn6]. cbn [fst snd] in Kn3, Kn4, Kn5, Kn6.
  apply NoDup6 in Hnd as (N12 & Hnd1 & Hnd2).
  pose proof (NoDup5 _ _ _ _ _ Hnd1) as (_ & _ & _ & _ & Hq1 & _ & _ & _ & _ & Hq2).
  pose proof (orient5 _ _ _ _ _ Hnd1 F1 F2) as (N13 & N14 & N15 & N16 & N34 & N35 & N36 & N45 & N46 & N56)%NoDup5.
  pose proof (orient5 _ _ _ _ _ Hnd2 F1 F2) as (N23 & N24 & N25 & N26 & _)%NoDup5. cbn [fst snd] in *.
  destruct (v_idx _ _ _ _ _ _ _ Hi (n1, n2) ltac:(left)) as (l & Hl & HIl). rewrite (s_idx _ _ Hs), Hl. rewrite Hl in Hold.
  destruct Htl as (l0 & Hl0 & Hl2). assert (l0 = l) as -> by congruence. clear Hl0.
  assert (exists s q, s ∈ l /\ c_slots v !! s = Some q /\ sameq (n1, n2) q) as (s0 & q0 & Hs0 & Hq0 & Hsq0).
  { destruct l as [|s0 l]; [simpl in Hl2; lia|]. exists s0. destruct (proj1 (proj2 HIl s0) ltac:(left)) as (q & ? & ?). exists q. split; [left|done]. }
  assert (K n1 /\ K n2) as [Kn1 Kn2]. { destruct (v_keys _ _ _ _ _ _ _ Hi q0 ltac:(by eapply elem_of_list_lookup_2)). destruct Hsq0 as [<-|P1]; [done|]. by injection P1 as -> ->. }
  destruct (nsort n1 n3) as [e1|e] eqn:G1; cbn [rbind]; [|by apply (nsort_terr K _ _ _ Kn1 Kn3)].
  destruct (nsort n2 n4) as [e2|e] eqn:G2; cbn [rbind]; [|by apply (nsort_terr K _ _ _ Kn2 Kn4)].
  destruct (nsort n1 n5) as [e3|e] eqn:G3; cbn [rbind]; [|by apply (nsort_terr K _ _ _ Kn1 Kn5)].
  destruct (nsort n2 n6) as [e4|e] eqn:G4; cbn [rbind]; [|by apply (nsort_terr K _ _ _ Kn2 Kn6)].
  destruct (decide (e1 ∉ o_used st /\ _)) as [(X1 & X2 & X3 & X4)|]; [|done].
  destruct (fresh _ _ _ _ _ _ _ Hs Hi G1 N13 X1) as (A1 & B1 & C1 & W1). destruct (fresh _ _ _ _ _ _ _ Hs Hi G2 N24 X2) as (A2 & B2 & C2 & W2).
  destruct (fresh _ _ _ _ _ _ _ Hs Hi G3 N15 X3) as (A3 & B3 & C3 & W3). destruct (fresh _ _ _ _ _ _ _ Hs Hi G4 N26 X4) as (A4 & B4 & C4 & W4).
  rewrite decide_True in Hold by done.
  destruct (single _ _ _ _ _ _ _ Hs Hi Q1 F1 Hq1 M1 T1) as (Ca & Ra & Ta). destruct (single _ _ _ _ _ _ _ Hs Hi Q2 F2 Hq2 M2 T2) as (Cb & Rb & Tb).
  (* the pair itself *)
  destruct (v_multi _ _ _ _ _ _ _ Hi (n1, n2) ltac:(left)) as (_ & Hc12 & _).
  assert (can (n1, n2)) as Cc by done.
  assert (~ tk (o_taken st) (n1, n2)) as Tc.
  { intros (t & Htt & Hst)%tk_iff. pose proof (s_tk _ _ Hs t Htt) as Ht0. assert (t = (n1, n2)) as -> by (apply can_eq; auto). done. }
  assert (RR (c_net (o_c st)) n1 n2 = 1%Z) as Rc.
  { rewrite (s_rel _ _ Hs), decide_False by done. rewrite (v_cons _ _ _ _ _ _ _ Hi) by done. rewrite decide_True; [done|]. apply cnt_pos. exists q0. split; [by eapply elem_of_list_lookup_2|done]. }
  assert (exists nv no U, (if decide (length l = 2) then setw (c_net v) n1 n2 0 else Ok (c_net v)) = Ok nv /\
    (if decide (length l = 2) then setw (c_net (o_c st)) n1 n2 0 else Ok (c_net (o_c st))) = Ok no /\
    (if decide (length l = 2) then urem (n1, n2) (o_used st) else Ok (o_used st)) = Ok U /\
    NET K Zr nv /\ NET K Zr no /\ REL (RR no) (RR nv) (o_taken st) /\ USED U0 (RR no) U /\ DISJ U0 (RR no) /\
    RR no n3 n4 = 1%Z /\ RR no n5 n6 = 1%Z) as (nv & no & U & Env & Eno & EU & Hnv & Hno & Hr & Hu & Hd & R34 & R56).
  { destruct (decide (length l = 2)).
    - destruct (setw_ok K Zr (c_net v) n1 n2 0 Hvn N12 Kn1 Kn2) as (nv & Ev & Hnv & HRv). destruct (setw_ok K Zr (c_net (o_c st)) n1 n2 0 Hon N12 Kn1 Kn2) as (no & Eo & Hno & HRo).
      destruct (rem_ok U0 HU0 (RR (c_net (o_c st))) (o_used st) (n1, n2) (s_used _ _ Hs) (s_disj _ _ Hs) Cc) as (U & EU & HU & HD); [cbn [fst snd]; congruence|].
      exists nv, no, U. split_and!; try done.
      + eapply REL_ext; [exact HRo|exact HRv|]. apply REL_upd; [apply Hs|done].
      + by eapply USED_ext; [exact HRo|].
      + by eapply DISJ_ext; [exact HRo|].
      + rewrite HRo. unfold upd. rewrite decide_False; [done|]. rewrite sameq_iff. intros [[? ?]|[? ?]]; congruence.
      + rewrite HRo. unfold upd. rewrite decide_False; [done|]. rewrite sameq_iff. intros [[? ?]|[? ?]]; congruence.
    - exists (c_net v), (c_net (o_c st)), (o_used st). split_and!; try done; apply Hs. }
  rewrite Env in Hold. rewrite Eno, EU. cbn [rbind] in Hold. cbn [rbind]. rewrite !(getw_ok K Zr) in Hold by done. cbn [rbind] in Hold.
  destruct (decide (RR nv n3 n4 = 1%Z /\ RR nv n5 n6 = 1%Z)) as [_|_]; [|by destruct Hold as [? _]].
  assert (forall q : name * name * Z, q ∈ [(n3, n4, 0%Z); (n5, n6, 0%Z); (n1, n3, 1%Z); (n2, n4, 1%Z); (n1, n5, 1%Z); (n2, n6, 1%Z)] -> (q.1).1 <> (q.1).2 /\ K ((q.1).1) /\ K ((q.1).2)) as Hws.
  { intros q. rewrite !elem_of_cons, elem_of_nil. intros Hq. repeat destruct Hq as [-> | Hq]; [..|done]; cbn [fst snd]; done. }
  destruct (puts_ok K Zr _ nv Hnv Hws) as (nv' & Ev & Hnv' & HRv). destruct (puts_ok K Zr _ no Hno Hws) as (no' & Eo & Hno' & HRo).
  rewrite Ev in Hold. rewrite Eo. cbn [rbind] in Hold. cbn [rbind].
  destruct (reverse l) as [|x [|y r]]; [by destruct Hold as [? _]|by destruct Hold as [? _]|].
  destruct (rems_ok U0 HU0 (o_taken st) [(n3, n4); (n5, n6)] _ _ _ Hr Hu Hd) as (U1 & EU1 & Hr1 & Hu1 & Hd1).
  { intros p. rewrite !elem_of_cons, elem_of_nil. intros [->|[->|[]]]; split_and!; try done; cbn [fst snd]; congruence. }
  { apply NoDup_cons. rewrite elem_of_list_singleton. split; [congruence|apply NoDup_singleton]. }
  rewrite EU1. cbn [rbind]. destruct Hold as (Hi' & Em' & Hl' & Ho'). eexists. split; [|split; [exact Hi'|split; [done|split; [exact Hl'|exact Ho']]]].
  destruct (adds_ok U0 HU0 (o_taken st) (s_tk _ _ Hs) [((n1, n3), e1); ((n2, n4), e2); ((n1, n5), e3); ((n2, n6), e4)] _ _ _ Hr1 Hu1 Hd1) as (Hr2 & Hu2 & Hd2).
  { intros e. rewrite !elem_of_cons, elem_of_nil. intros [->|[->|[->|[->|[]]]]]; done. }
  split; cbn [o_c o_used o_taken c_net c_slots c_idx c_self c_multi]; try apply Hs.
  - by rewrite (s_slots _ _ Hs).
  - done.
  - done.
  - by eapply REL_ext; [exact HRo|exact HRv|].
  - by eapply USED_ext; [exact HRo|].
  - by eapply DISJ_ext; [exact HRo|].
Qed.
Lemma ov_multi_loop_spec M n1 n2 fuel : forall st v rnd, SIM st v -> VInv ((n1, n2) :: M) [] v -> big ((n1, n2) :: M) v -> two_left (n1, n2) v ->
  (n1, n2) ∉ o_taken st ->
  match ov_multi_loop fuel st n1 n2 rnd with
  | Ok (st', _) => exists v', SIM st' v' /\ VInv ((n1, n2) :: M) [] v' /\ o_taken st' = o_taken st /\
      (exists l l', dget (c_idx v) (n1, n2) = Some l /\ dget (c_idx v') (n1, n2) = Some l' /\ length l = length l' + 2) /\
      (forall p, p <> (n1, n2) -> dget (c_idx v') p = dget (c_idx v) p)
  | Err e => cerr K L e
  end.
Proof using HU0.
  induction fuel as [|f IH]; intros st v rnd Hs H Hb Htl Hnt; cbn [ov_multi_loop]; [by left|].
  assert (c_slots (o_c st) = c_slots v) as Es by apply Hs.
  pose proof (draw_spec K L (o_c st) rnd ltac:(rewrite Es; by apply (v_len _ _ _ _ _ _ _ H))) as Hd. destruct (draw (o_c st) rnd) as [[[i1 i2] rnd']|e]; cbn [rbind]; [|done].
  rewrite Es in Hd. destruct Hd as (He & H1 & H2). pose proof (ov_multi_try_spec M st v n1 n2 i1 i2 Hs H Hb Htl Hnt He H1 H2) as Ht.
  destruct (ov_multi_try st n1 n2 i1 i2) as [[st'|]|e]; cbn [rbind]; [done| |right; by left]. by apply IH.
Qed.
Lemma ov_multi_edge_loop M n1 n2 : forall k st v rnd l, SIM st v -> VInv ((n1, n2) :: M) [] v -> big M v -> dget (c_idx v) (n1, n2) = Some l ->
  length l = 2 * k \/ length l = 2 * k + 1 -> (n1, n2) ∉ o_taken st ->
  match rfold (fun s (_ : unit) => ov_multi_loop (S (length (s.2))) (s.1) n1 n2 (s.2)) (st, rnd) (replicate k tt) with
  | Ok (st', _) => exists v', SIM st' v' /\ VInv M [] v' /\ o_taken st' = o_taken st /\ big M v'
  | Err e => cerr K L e
  end.
Proof using HU0.
  induction k as [|k IH]; intros st v rnd l Hs H Hb Hl Hlen Hnt; cbn [replicate rfold].
  - exists v. split; [done|]. split; [|done]. pose proof H as [H1 H2 H3 H4 H5 H6 H7 H8 H9 H10 H11 H12]. split; try done.
    + intros a b Hne Hc. destruct (H5 a b Hne Hc) as (p & [->|Hp]%elem_of_cons & Hsp); [|by exists p]. exfalso.
      destruct (H8 (n1, n2) ltac:(left)) as (l' & Hl' & HI). assert (l' = l) as -> by congruence.
      pose proof (IDX_len (sameq (n1, n2)) _ _ HI) as Hcl. rewrite (cnt_sameq _ _ _ Hsp) in Hcl. lia.
    + intros p Hp. apply H6. by right.
    + by apply NoDup_cons in H7 as [_ ?].
    + intros p Hp. apply H8. by right.
  - cbn [fst snd]. assert (big ((n1, n2) :: M) v) as Hb'. { intros p [->|Hp]%elem_of_cons; [|by apply Hb]. exists l. split; [done|lia]. }
    pose proof (ov_multi_loop_spec M n1 n2 (S (length rnd)) st v rnd Hs H Hb' ltac:(exists l; split; [done|lia]) Hnt) as Hm. destruct (ov_multi_loop _ st n1 n2 rnd) as [[st' rnd']|e]; [|done].
    destruct Hm as (v' & Hs' & H' & Et & (l1 & l2 & E1 & E2 & El) & Ho). assert (l1 = l) as -> by congruence.
    assert (big M v') as Hb2.
    { intros p Hp. rewrite Ho; [by apply Hb|]. intros ->. apply v_nd, NoDup_cons in H as [? _]. done. }
    specialize (IH st' v' rnd' l2 Hs' H' Hb2 E2 ltac:(lia) ltac:(by rewrite Et)). destruct (rfold _ _ (replicate k tt)) as [[st2 r2]|e]; [|done]. destruct IH as (v2 & ? & ? & ? & ?).
    exists v2. split_and!; [done|done|congruence|done].
Qed.
Lemma ov_multi_phase_spec T : forall M st v rnd, SIM st v -> VInv (M ++ T) [] v -> big (M ++ T) v -> (forall p, p ∈ M -> p ∉ o_taken st) ->
  match rfold ov_multi_edge (st, rnd) M with
  | Ok (st', _) => exists v', SIM st' v' /\ VInv T [] v' /\ o_taken st' = o_taken st
  | Err e => cerr K L e
  end.
Proof using HU0.
  induction M as [|[n1 n2] M IH]; intros st v rnd Hs H Hb Hnt; cbn [rfold]; [by exists v|]. unfold ov_multi_edge at 1. cbn [fst snd].
  destruct (Hb (n1, n2) ltac:(left)) as (l & Hl & _). rewrite (s_idx _ _ Hs), Hl.
  assert (big (M ++ T) v) as Hb1 by (intros p Hp; apply Hb; by right).
  pose proof (Nat.div_mod_eq (length l) 2) as Hdm. pose proof (Nat.mod_upper_bound (length l) 2 ltac:(lia)).
  pose proof (ov_multi_edge_loop (M ++ T) n1 n2 (length l / 2) st v rnd l Hs H Hb1 Hl ltac:(lia) ltac:(apply Hnt; left)) as Hm.
  destruct (rfold _ (st, rnd) (replicate _ tt)) as [[st' rnd']|e]; [|done]. destruct Hm as (v' & Hs' & H' & Et & Hb').
  specialize (IH st' v' rnd' Hs' H' Hb' ltac:(intros p Hp; rewrite Et; apply Hnt; by right)).
  destruct (rfold ov_multi_edge (st', rnd') M) as [[st2 r2]|e]; [|done]. destruct IH as (v2 & ? & ? & ?). exists v2. split_and!; [done|done|congruence].
Qed.

(** ** Edges of other combinations *)
Definition gl (T sl : list (name * name)) : list (name * name) := filter (fun q => ~ tk T q) sl.
Lemma gl_perm T sl sl' : sl ≡ₚ sl' -> gl T sl ≡ₚ gl T sl'.
Proof. intros H. unfold gl. by rewrite H. Qed.
Lemma gl_yes T q sl : ~ tk T q -> gl T (q :: sl) = q :: gl T sl.
Proof. intros H. unfold gl. by rewrite filter_cons, decide_True. Qed.
Lemma gl_no T q sl : tk T q -> gl T (q :: sl) = gl T sl.
Proof. intros H. unfold gl. rewrite filter_cons, decide_False; [done|]. tauto. Qed.
Lemma cnt_gl T p sl : cnt p (gl T sl) = if decide (tk T p) then 0 else cnt p sl.
Proof.
  induction sl as [|q sl IH]; [by destruct (decide _)|]. destruct (decide (tk T q)) as [Hq|Hq].
  - rewrite gl_no, IH by done. destruct (decide (tk T p)) as [Hp|Hp]; [done|]. rewrite cnt_cons_ne; [done|]. intros Hs. apply Hp. by eapply tk_sameq; [apply sameq_sym|].
  - rewrite gl_yes by done. destruct (decide (sameq p q)) as [Hs|Hs].
    + rewrite cnt_cons_eq, IH by done. assert (~ tk T p) as Hp by (intros Hp; apply Hq; by eapply tk_sameq). rewrite !decide_False by done. by rewrite cnt_cons_eq.
    + rewrite cnt_cons_ne, IH by done. by rewrite cnt_cons_ne.
Qed.
(** [P]: the slots that still hold an edge of another combination. *)
Record TInv (P : list (name * name * nat)) (st : ost) : Prop := {
  t_len : length (c_slots (o_c st)) = L;
  t_net : NET K Zr (c_net (o_c st));
  t_cons : CONS (RR (c_net (o_c st))) (gl (o_taken st) (c_slots (o_c st)));
  t_two : TWO (gl (o_taken st) (c_slots (o_c st))) [];
  t_self0 : forall a, RR (c_net (o_c st)) a a = 0%Z;
  t_used : USED U0 (RR (c_net (o_c st))) (o_used st);
  t_disj : DISJ U0 (RR (c_net (o_c st)));
  t_tk : forall p, p ∈ o_taken st -> p ∈ U0;
  t_deg : forall x, ConfFacts.tot (ends x) (c_slots (o_c st)) = D x;
  t_keys : forall q, q ∈ c_slots (o_c st) -> K (q.1) /\ K (q.2);
  t_ns : forall q, q ∈ c_slots (o_c st) -> q.1 <> q.2;
  t_nd : NoDup P;
  t_pend : forall p s, (p, s) ∈ P <-> p ∈ o_taken st /\ exists q, c_slots (o_c st) !! s = Some q /\ sameq p q
}.
Lemma tinv_of st v T : SIM st v -> VInv T [] v -> T ≡ₚ o_taken st ->
  TInv (T ≫= fun p => (fun s => (p, s)) <$> default [] (dget (c_idx (o_c st)) p)) st.
Proof using HU0.
  intros Hs [Hlen Hnet Hcons Hz Htwo Hmul HndM Hidx Hdeg Hkeys HndS Hself] HT. pose proof (s_slots _ _ Hs) as Es. pose proof (s_idx _ _ Hs) as Ei.
  assert (forall p, p ∈ T <-> p ∈ o_taken st) as HTt by (intros p; by rewrite HT).
  split; try (by apply Hs).
  - by rewrite Es.
  - intros a b Hne. rewrite (s_rel _ _ Hs), Es, cnt_gl. destruct (decide (tk (o_taken st) (a, b))); [done|]. apply (Hcons a b Hne).
  - intros a b Hne. rewrite Es, cnt_gl. destruct (decide (tk (o_taken st) (a, b))) as [|Ht]; [lia|]. intros Hc. exfalso.
    destruct (Htwo a b Hne Hc) as (p & Hp & Hsq). apply Ht, tk_iff. exists p. split; [by apply HTt|done].
  - intros a. rewrite (s_rel _ _ Hs), Hz. by destruct (decide _).
  - by rewrite Es.
  - by rewrite Es.
  - rewrite Es. intros [a b] [s Hq]%elem_of_list_lookup. cbn [fst snd]. intros ->. apply Hself in Hq. by apply elem_of_nil in Hq.
  - apply NoDup_bind.
    + done.
    + intros p Hp. rewrite Ei. destruct (Hidx p Hp) as (l & -> & [Hn _]). apply NoDup_fmap_2; [by intros ?? [=]|done].
    + intros p p' [z s] Hp Hp' H1 H2. apply elem_of_list_fmap in H1 as (? & [= -> ->] & _). apply elem_of_list_fmap in H2 as (? & [= <- ->] & _). done.
  - intros p s. rewrite elem_of_list_bind. rewrite Es. split.
    + intros (p' & H & Hp). apply elem_of_list_fmap in H as (s' & [= -> ->] & H). split; [by apply HTt|]. rewrite Ei in H. destruct (Hidx p' Hp) as (l & El & [_ Hl]). rewrite El in H. by apply Hl.
    + intros [Hp%HTt Hq]. exists p. split; [|done]. apply elem_of_list_fmap. exists s. split; [done|]. rewrite Ei. destruct (Hidx p Hp) as (l & -> & [_ Hl]). by apply Hl.
Qed.
Lemma ov_taken_try_spec P st n1 n2 si i1 i2 : TInv (((n1, n2), si) :: P) st -> i1 <> i2 -> i1 < length (c_slots (o_c st)) -> i2 < length (c_slots (o_c st)) ->
  match ov_taken_try st n1 n2 si i1 i2 with
  | Ok (Some st') => TInv P st' /\ c_idx (o_c st') = c_idx (o_c st) /\ o_taken st' = o_taken st
  | Ok None => True
  | Err e => terr K e
  end.
Proof using HU0.
  intros [Hlen Hnet Hcons Htwo Hz Hused Hdisj Htk Hdeg Hkeys Hns HndP Hpend] Hij H1 H2.
  unfold ov_taken_try. set (c := o_c st) in *. set (T := o_taken st) in *.
  destruct (slot_ok c i1 H1) as (q1 & E1 & Q1). destruct (slot_ok c i2 H2) as (q2 & E2 & Q2). rewrite E1, E2. cbn [rbind].
  pose proof (Hkeys q1 ltac:(by eapply elem_of_list_lookup_2)) as [K1 K1']. pose proof (Hkeys q2 ltac:(by eapply elem_of_list_lookup_2)) as [K2 K2'].
  destruct (nsort (q1.1) (q1.2)) as [[n3 n4]|e] eqn:F1; cbn [rbind]; [|by apply (nsort_terr K _ _ _ K1 K1')].
  destruct (nsort (q2.1) (q2.2)) as [[n5 n6]|e] eqn:F2; cbn [rbind]; [|by apply (nsort_terr K _ _ _ K2 K2')].
  destruct (decide (NoDup _)) as [Hnd|]; [|done]. destruct (decide (_ /\ _)) as [[T1 T2]|]; [|done].
  assert (K n3 /\ K n4) as [Kn3 Kn4] by by destruct (nsort_ok _ _ _ F1) as [[[= -> ->]|[= -> ->]] _].
  assert (K n5 /\ K n6) as [Kn5 Kn6] by by destruct (nsort_ok _ _ _ F2) as [[[= -> ->]|[= -> ->]] _].
  apply NoDup6 in Hnd as (N12 & Hnd1 & Hnd2).
  pose proof (NoDup5 _ _ _ _ _ Hnd1) as (_ & _ & _ & _ & Hq1 & _ & _ & _ & _ & Hq2).
  pose proof (orient5 _ _ _ _ _ Hnd1 F1 F2) as (N13 & N14 & N15 & N16 & N34 & N35 & N36 & N45 & N46 & N56)%NoDup5.
  pose proof (orient5 _ _ _ _ _ Hnd2 F1 F2) as (N23 & N24 & N25 & N26 & _)%NoDup5. cbn [fst snd] in *.
  destruct (proj1 (Hpend (n1, n2) si) ltac:(left)) as (Ht12 & r & Qs & Sr).
  assert (K n1 /\ K n2) as [Kn1 Kn2]. { destruct (Hkeys r ltac:(by eapply elem_of_list_lookup_2)). destruct Sr as [<-|P1]; [done|]. by injection P1 as -> ->. }
  destruct (nsort n1 n3) as [e1|e] eqn:G1; cbn [rbind]; [|by apply (nsort_terr K _ _ _ Kn1 Kn3)].
  destruct (nsort n2 n5) as [e2|e] eqn:G2; cbn [rbind]; [|by apply (nsort_terr K _ _ _ Kn2 Kn5)].
  destruct (nsort n4 n6) as [e3|e] eqn:G3; cbn [rbind]; [|by apply (nsort_terr K _ _ _ Kn4 Kn6)].
  destruct (decide (e1 ∉ o_used st /\ _)) as [(X1 & X2 & X3)|]; [|done].
  assert (forall t q, t ∈ T -> can q -> sameq t q -> t = q) as Htc by (intros t q Ht Hq Hsq; apply can_eq; auto).
  (* the new edges *)
  assert (forall a b e, nsort a b = Ok e -> a <> b -> e ∉ o_used st -> can e /\ sameq (a, b) e /\ e ∉ U0 /\ ~ tk T e /\ cnt (a, b) (gl T (c_slots c)) = 0) as Hfresh.
  { intros a b e He Hne Hu. pose proof (nsort_can _ _ _ He Hne) as Hc. pose proof (nsort_sameq _ _ _ He) as Hq. split; [done|]. split; [by apply sameq_sym|].
    assert (e ∉ U0) as H0 by (intros H; apply Hu, Hused; by left). split; [done|].
    split. { intros (t & Ht & Hst)%tk_iff. apply H0. rewrite <- (Htc t e Ht Hc Hst). by apply Htk. }
    rewrite <- (cnt_sameq e (a, b)) by done. rewrite (surjective_pairing e). eapply CONS_zero; [exact Hcons|apply Hc|].
    destruct (decide (RR (c_net c) (e.1) (e.2) = 0%Z)) as [|Hn]; [done|]. exfalso. apply Hu, Hused. by right. }
  destruct (Hfresh _ _ _ G1 N13 X1) as (A1 & B1 & C1 & D1 & W1). destruct (Hfresh _ _ _ G2 N25 X2) as (A2 & B2 & C2 & D2 & W2).
  destruct (Hfresh _ _ _ G3 N46 X3) as (A3 & B3 & C3 & D3 & W3).
  (* the old edges *)
  assert (forall i q p, c_slots c !! i = Some q -> nsort (q.1) (q.2) = Ok p -> q.1 <> q.2 -> p ∉ T -> can p /\ sameq p q /\ ~ tk T q /\ ~ tk T p /\ RR (c_net c) (p.1) (p.2) = 1%Z /\ cnt p (gl T (c_slots c)) = 1) as Hsing.
  { intros i q p Hq Hp Hne Ht. pose proof (nsort_can _ _ _ Hp Hne) as Hc. pose proof (nsort_sameq _ _ _ Hp) as Hsq. rewrite <- surjective_pairing in Hsq.
    assert (~ tk T p) as Htp. { intros (t & Htt & Hst)%tk_iff. apply Ht. by rewrite <- (Htc t p Htt Hc Hst). }
    assert (~ tk T q) as Htq. { intros H. apply Htp. eapply tk_sameq; [by apply sameq_sym|done]. }
    split_and!; try done.
    - rewrite (Hcons (p.1) (p.2)) by apply Hc. rewrite <- surjective_pairing, decide_True; [done|]. apply cnt_pos. exists q. split; [|done].
      unfold gl. apply elem_of_list_filter. split; [done|]. by eapply elem_of_list_lookup_2.
    - assert (1 <= cnt p (gl T (c_slots c))).
      { apply cnt_pos. exists q. split; [|done]. unfold gl. apply elem_of_list_filter. split; [done|]. by eapply elem_of_list_lookup_2. }
      destruct (decide (2 <= cnt p (gl T (c_slots c)))) as [H2'|]; [|lia]. exfalso. rewrite (surjective_pairing p) in H2'.
      destruct (Htwo (p.1) (p.2)) as (? & ?%elem_of_nil & _); [apply Hc|done|done]. }
  destruct (Hsing _ _ _ Q1 F1 Hq1 T1) as (Ca & Sa & Taq & Ta & Ra & La). destruct (Hsing _ _ _ Q2 F2 Hq2 T2) as (Cb & Sb & Tbq & Tb & Rb & Lb). cbn [fst snd] in Ra, Rb.
  rewrite !(getw_ok K Zr) by done. cbn [rbind]. rewrite decide_True by done.
  assert (forall q : name * name * Z, q ∈ [(n3, n4, 0%Z); (n5, n6, 0%Z); (n1, n3, 1%Z); (n2, n5, 1%Z); (n4, n6, 1%Z)] -> (q.1).1 <> (q.1).2 /\ K ((q.1).1) /\ K ((q.1).2)) as Hws.
  { intros q. rewrite !elem_of_cons, elem_of_nil. intros Hq. repeat destruct Hq as [-> | Hq]; [..|done]; cbn [fst snd]; done. }
  destruct (puts_ok K Zr _ (c_net c) Hnet Hws) as (n' & -> & Hnet' & HR). cbn [rbind].
  assert (REL (RR (c_net c)) (RR (c_net c)) []) as HREL. { intros x y. by destruct (decide (tk [] (x, y))) as [H%tk_iff|]; [destruct H as (? & ?%elem_of_nil & _)|]. }
  destruct (rems_ok U0 HU0 [] [(n3, n4); (n5, n6)] _ _ _ HREL Hused Hdisj) as (U1 & -> & Hr1 & Hu1 & Hd1).
  { intros p. rewrite !elem_of_cons, elem_of_nil. intros [->|[->|[]]]; split_and!; try done; cbn [fst snd]; try congruence; by intros (? & ?%elem_of_nil & _)%tk_iff. }
  { apply NoDup_cons. rewrite elem_of_list_singleton. split; [congruence|apply NoDup_singleton]. }
  cbn [rbind]. split; [|done].
  destruct (adds_ok U0 HU0 [] ltac:(by intros ? ?%elem_of_nil) [((n1, n3), e1); ((n2, n5), e2); ((n4, n6), e3)] _ _ _ Hr1 Hu1 Hd1) as (_ & Hu2 & Hd2).
  { intros e. rewrite !elem_of_cons, elem_of_nil. intros [->|[->|[->|[]]]]; done. }
  assert (tk T r) as Tr. { apply tk_iff. exists (n1, n2). done. }
  assert (si <> i1) as Ne1. { intros ->. rewrite Q1 in Qs. injection Qs as ->. done. }
  assert (si <> i2) as Ne2. { intros ->. rewrite Q2 in Qs. injection Qs as ->. done. }
  pose proof (lookup_lt_Some _ _ _ Qs) as Hsi.
  assert (NoDup [si; i1; i2]) as Hix. { rewrite !NoDup_cons, !not_elem_of_cons. split_and!; try done; try apply not_elem_of_nil; apply NoDup_nil_2. }
  destruct (three_ins (c_slots c) si i1 i2 e1 e2 e3 Hix Hsi H1 H2) as (L0 & L1 & L2 & Lo & Ll).
  set (sl' := <[i2:=e3]> (<[i1:=e2]> (<[si:=e1]> (c_slots c)))) in *.
  destruct (perm_at (n1, n1) (c_slots c) sl' [si; i1; i2] Hix) as (k & PP & PP'); [| done | done |].
  { intros i. rewrite !elem_of_cons, elem_of_nil. intros [->|[->|[->|[]]]]; done. }
  cbn [fmap list_fmap app] in PP, PP'. rewrite Qs, Q1, Q2 in PP. rewrite L0, L1, L2 in PP'. cbv [default from_option id] in PP, PP'.
  assert (gl T (c_slots c) ≡ₚ q1 :: q2 :: gl T k) as PG. { rewrite (gl_perm T _ _ PP), gl_no, !gl_yes by done. done. }
  assert (gl T sl' ≡ₚ e3 :: e2 :: e1 :: gl T k) as PG'.
  { rewrite (gl_perm T _ _ PP'), !gl_yes by done. change (e1 :: e2 :: e3 :: gl T k) with ([e1; e2; e3] ++ gl T k). rewrite <- (reverse_Permutation [e1; e2; e3]). done. }
  rewrite PG, !tot_cons in W1, W2, W3. rewrite PG, !tot_cons in La, Lb. rewrite (ind_true (sameq (n3, n4)) q1 Sa) in La. rewrite (ind_true (sameq (n5, n6)) q2 Sb) in Lb.
  assert (forall q, q ∈ sl' -> q = e1 \/ q = e2 \/ q = e3 \/ q ∈ c_slots c) as Hin.
  { intros q. rewrite PP', !elem_of_cons. intros [->|[->|[->|Hq]]]; auto. do 3 right. rewrite PP, !elem_of_cons. auto. }
  split; cbn [o_c o_used o_taken c_net c_slots]; fold T; fold sl'; try done.
  - by rewrite Ll.
  - assert (CONS (updl (RR (c_net c)) [(n3, n4, 0%Z); (n5, n6, 0%Z); (n1, n3, 1%Z); (n2, n5, 1%Z); (n4, n6, 1%Z)]) (gl T sl')) as HC; [|by eapply CONS_ext].
    unfold updl. cbn [foldl fst snd]. eapply CONS_perm; [symmetry; exact PG'|].
    apply CONS_add; [|done]. apply CONS_add; [|done]. apply CONS_add; [|done].
    apply (CONS_rem _ q2); [|done|lia]. apply (CONS_rem _ q1); [|done|rewrite tot_cons; lia]. by eapply CONS_perm.
  - eapply TWO_perm; [symmetry; exact PG'|].
    assert (TWO (gl T k) []) as Hk. { apply (TWO_rem q2), (TWO_rem q1). by eapply TWO_perm. }
    apply TWO_add; [apply TWO_add; [apply TWO_add; [done|]|]|].
    + rewrite <- (cnt_sameq _ _ _ B1). lia.
    + rewrite <- (cnt_sameq _ _ _ B2), cnt_cons_ne; [lia|]. intros Hsq. apply sameq_sym in B1. apply (sameq_trans _ _ _ Hsq), sameq_iff in B1 as [[? ?]|[? ?]]; congruence.
    + rewrite <- (cnt_sameq _ _ _ B3), !cnt_cons_ne; [lia| |]; intros Hsq.
      * apply sameq_sym in B1. apply (sameq_trans _ _ _ Hsq), sameq_iff in B1 as [[? ?]|[? ?]]; congruence.
      * apply sameq_sym in B2. apply (sameq_trans _ _ _ Hsq), sameq_iff in B2 as [[? ?]|[? ?]]; congruence.
  - intros a. rewrite HR. cbn [foldl fst snd]. rewrite !upd_self by done. apply Hz.
  - by eapply USED_ext; [exact HR|].
  - by eapply DISJ_ext; [exact HR|].
  - intros x. rewrite <- Hdeg, PP, PP', !tot_cons.
    rewrite <- (ends_sameq x _ _ B1), <- (ends_sameq x _ _ B2), <- (ends_sameq x _ _ B3), <- (ends_sameq x _ _ Sa), <- (ends_sameq x _ _ Sb), <- (ends_sameq x _ _ Sr). unfold ends. cbn [fst snd]. lia.
  - intros q [->|[->|[->|Hq]]]%Hin.
    + by destruct (nsort_ok _ _ _ G1) as [[-> | ->] _].
    + by destruct (nsort_ok _ _ _ G2) as [[-> | ->] _].
    + by destruct (nsort_ok _ _ _ G3) as [[-> | ->] _].
    + by apply Hkeys.
  - intros q [->|[->|[->|Hq]]]%Hin; [apply A1|apply A2|apply A3|by apply Hns].
  - by apply NoDup_cons in HndP as [_ ?].
  - intros p s. apply NoDup_cons in HndP as [Hnin _]. assert ((p, s) ∈ P <-> (p, s) ∈ (n1, n2, si) :: P /\ (p, s) <> (n1, n2, si)) as ->.
    { rewrite elem_of_cons. split; [|by intros [[?|?] ?]]. intros Hx. split; [by right|]. intros E. by rewrite E in Hx. }
    rewrite Hpend. destruct (decide (p ∈ T)) as [Hp|]; [|tauto].
    assert (forall q, sameq p q -> tk T q) as Hpt by (intros q Hq; apply tk_iff; by exists p).
    destruct (decide (s ∈ [si; i1; i2])) as [Hs|Hs].
    + rewrite !elem_of_cons, elem_of_nil in Hs. split.
      * intros [(_ & q & Hq & Hpq) Hne]. exfalso. destruct Hs as [->|[->|[->|[]]]].
        -- rewrite Qs in Hq. injection Hq as <-. apply Hne. f_equal. apply (Htc p (n1, n2)); [done|auto|]. eapply sameq_trans; [exact Hpq|by apply sameq_sym].
        -- rewrite Q1 in Hq. injection Hq as <-. by apply Taq, Hpt.
        -- rewrite Q2 in Hq. injection Hq as <-. by apply Tbq, Hpt.
      * intros (_ & q & Hq & Hpq%Hpt). exfalso. destruct Hs as [->|[->|[->|[]]]]; [rewrite L0 in Hq|rewrite L1 in Hq|rewrite L2 in Hq]; injection Hq as <-; done.
    + rewrite Lo by done. split; [by intros [[_ ?] _]|]. intros Hq. split; [done|]. intros [= -> ->]. apply Hs. left.
Qed.
Lemma ov_taken_loop_spec P n1 n2 si fuel : forall st rnd, TInv (((n1, n2), si) :: P) st ->
  match ov_taken_loop fuel st n1 n2 si rnd with
  | Ok (st', _) => TInv P st' /\ c_idx (o_c st') = c_idx (o_c st) /\ o_taken st' = o_taken st
  | Err e => cerr K L e
  end.
Proof using HU0.
  induction fuel as [|f IH]; intros st rnd H; cbn [ov_taken_loop]; [by left|].
  pose proof (draw_spec K L (o_c st) rnd (t_len _ _ H)) as Hd. destruct (draw (o_c st) rnd) as [[[i1 i2] rnd']|e]; cbn [rbind]; [|done].
  destruct Hd as (He & H1 & H2). pose proof (ov_taken_try_spec P st n1 n2 si i1 i2 H He H1 H2) as Ht.
  destruct (ov_taken_try st n1 n2 si i1 i2) as [[st'|]|e]; cbn [rbind]; [done| |right; by left]. by apply IH.
Qed.
Lemma ov_taken_slots P n1 n2 : forall l st rnd, TInv (((fun s => ((n1, n2), s)) <$> l) ++ P) st ->
  match rfold (fun s si => ov_taken_loop (S (length (s.2))) (s.1) n1 n2 si (s.2)) (st, rnd) l with
  | Ok (st', _) => TInv P st' /\ c_idx (o_c st') = c_idx (o_c st) /\ o_taken st' = o_taken st
  | Err e => cerr K L e
  end.
Proof using HU0.
  induction l as [|si l IH]; intros st rnd H; cbn [rfold fst snd]; [done|]. cbn [fmap list_fmap app] in H.
  pose proof (ov_taken_loop_spec _ n1 n2 si (S (length rnd)) st rnd H) as Hl. destruct (ov_taken_loop _ st n1 n2 si rnd) as [[st' rnd']|e]; [|done].
  destruct Hl as (H' & Ei & Et). specialize (IH st' rnd' H'). destruct (rfold _ _ l) as [[st2 r2]|e]; [|done]. destruct IH as (? & ? & ?). split_and!; [done|congruence..].
Qed.
Lemma ov_taken_phase_spec : forall T st rnd, (forall p, p ∈ T -> is_Some (dget (c_idx (o_c st)) p)) ->
  TInv (T ≫= fun p => (fun s => (p, s)) <$> default [] (dget (c_idx (o_c st)) p)) st ->
  match rfold ov_taken_edge (st, rnd) T with
  | Ok (st', _) => TInv [] st'
  | Err e => cerr K L e
  end.
Proof using HU0.
  induction T as [|[n1 n2] T IH]; intros st rnd Hd H; cbn [rfold]; [done|]. unfold ov_taken_edge at 1. cbn [fst snd]. rewrite bind_cons in H.
  destruct (Hd (n1, n2) ltac:(left)) as [l Hl]. rewrite Hl in *. change (default [] (Some l)) with l in H.
  pose proof (ov_taken_slots _ n1 n2 l st rnd H) as Hs. destruct (rfold _ (st, rnd) l) as [[st' rnd']|e]; [|done]. destruct Hs as (H' & Ei & Et). rewrite <- Ei in H'.
  apply IH; [|done]. intros p Hp. rewrite Ei. apply Hd. by right.
Qed.
(** When no slot holds an edge of another combination. *)
Lemma tinv_end st : TInv [] st -> VInv [] [] (CSt (c_net (o_c st)) (c_slots (o_c st)) [] [] []).
Proof using HU0.
  intros [Hlen Hnet Hcons Htwo Hz Hused Hdisj Htk Hdeg Hkeys Hns HndP Hpend].
  assert (gl (o_taken st) (c_slots (o_c st)) = c_slots (o_c st)) as Eg.
  { unfold gl. assert (forall q, q ∈ c_slots (o_c st) -> ~ tk (o_taken st) q) as Hq.
    { intros q [s Hs]%elem_of_list_lookup (p & Hp & Hsq)%tk_iff. assert ((p, s) ∈ []) as ?%elem_of_nil by (apply Hpend; eauto). done. }
    revert Hq. generalize (c_slots (o_c st)). intros sl. induction sl as [|q sl IH]; intros Hq; [done|]. rewrite filter_cons, decide_True by (apply Hq; left).
    f_equal. apply IH. intros; apply Hq; by right. }
  rewrite Eg in *. split; cbn [c_net c_slots c_multi c_idx c_self]; try done.
  - by intros p ?%elem_of_nil.
  - apply NoDup_nil_2.
  - by intros p ?%elem_of_nil.
  - apply NoDup_nil_2.
  - intros x s. rewrite elem_of_nil. split; [done|]. intros Hs. by apply (Hns (x, x)); [eapply elem_of_list_lookup_2|].
Qed.

(** ** The first pass *)
Record FS (pre : list (name * name)) (st : ost) (v : cst) : Prop := {
  fs_first : First K Zr pre v;
  fs_slots : c_slots (o_c st) = c_slots v;
  fs_idx : c_idx (o_c st) = c_idx v;
  fs_self : c_self (o_c st) = c_self v;
  fs_net : NET K Zr (c_net (o_c st));
  fs_rel : REL (RR (c_net (o_c st))) (RR (c_net v)) U0;
  fs_used : USED U0 (RR (c_net (o_c st))) (o_used st);
  fs_ndt : NoDup (o_taken st);
  fs_ndm : NoDup (c_multi (o_c st));
  fs_tk : forall p, p ∈ o_taken st <-> p ∈ U0 /\ 1 <= cnt p pre;
  fs_multi : forall p, p ∈ c_multi (o_c st) <-> p ∈ c_multi v /\ p ∉ U0
}.
Lemma rel_disj R V : REL R V U0 -> DISJ U0 R.
Proof. intros H p Hp. rewrite H, <- surjective_pairing. rewrite decide_True; [done|]. apply tk_iff. exists p. split; [done|apply sameq_refl]. Qed.
Lemma ov_edge_spec pre st v a b : FS pre st v -> K a -> K b ->
  match ov_edge st (length pre, (a, b)) with
  | Ok st' => exists v', FS (pre ++ [(a, b)]) st' v' /\ c_slots (o_c st') = c_slots (o_c st)
  | Err e => terr K e
  end.
Proof using HU0 D.
  intros [Hf Es Ei Ef Hon Hr Hu Hnt Hnm Ht Hm] Ka Kb. pose proof (conf_edge_spec K Zr pre v a b Hf Ka Kb) as Hold. unfold conf_edge in Hold. unfold ov_edge.
  destruct (nsort a b) as [[x y]|e] eqn:E; cbn [rbind] in *; [|done]. pose proof (f_net _ _ _ _ Hf) as Hvn. pose proof (f_self0 _ _ _ _ Hf) as Hz.
  rewrite (getw_ok K Zr) in Hold by done. cbn [rbind] in Hold. rewrite Ei, Es, Ef.
  pose proof (nsort_ok _ _ _ E) as (Eor & Exy & _). cbn [fst snd] in Exy. pose proof (nsort_sameq _ _ _ E) as Hsx.
  assert (K x /\ K y) as [Kx Ky] by by destruct Eor as [[= -> ->]|[= -> ->]].
  assert (forall p sl q, cnt p (sl ++ [q]) = cnt p sl + ind (sameq p) q) as Hcs. { intros p sl q. rewrite tot_app. simpl. lia. }
  assert (forall p, p ∈ U0 -> sameq p (a, b) -> x <> y -> p = (x, y)) as Hpxy.
  { intros p Hp Hs Hne. apply can_eq; [auto|done|]. eapply sameq_trans; [exact Hs|by apply sameq_sym]. }
  destruct (decide (x = y)) as [Exy'|Nxy].
  - subst y. rewrite Hz in Hold. rewrite decide_False in Hold by lia. destruct Hold as [Hf' Es']. eexists. split; [|done].
    split; cbn [o_c o_used o_taken c_net c_slots c_idx c_self c_multi]; [exact Hf'|done..| |done].
    intros p. rewrite Ht, Hcs. split; [intros [? ?]; split; [done|lia]|]. intros [Hp Hc]. split; [done|]. destruct (decide (sameq p (a, b))) as [Hs|Hs]; [|rewrite ind_false in Hc by done; lia].
    exfalso. apply HU0 in Hp as [_ Hne]. destruct p as [p1 p2]. apply (sameq_trans _ _ (x, x)) in Hs; [|by apply sameq_sym]. apply sameq_iff in Hs. simpl in Hne. destruct Hs as [[-> ->]|[-> ->]]; done.
  - destruct (setw_ok K Zr (c_net v) x y 1 Hvn Nxy Kx Ky) as (nv & Ev & Hnv & HRv). rewrite Ev in Hold. cbn [rbind] in Hold. destruct Hold as [Hf' Es'].
    rewrite (getw_ok K Zr) by done. cbn [rbind]. assert (can (x, y)) as Cxy by done.
    assert (tk U0 (x, y) <-> (x, y) ∈ U0) as Htxy.
    { rewrite tk_iff. split; [intros (p & Hp & Hs); assert (p = (x, y)) as <- by (apply can_eq; auto); done|]. intros H. exists (x, y). split; [done|apply sameq_refl]. }
    destruct (decide ((x, y) ∈ U0)) as [Hin|Hin].
    + assert (RR (c_net (o_c st)) x y = 0%Z) as R0 by (rewrite Hr, decide_True; tauto). rewrite R0, decide_False by lia. rewrite decide_True by (apply (Hu (x, y)); by left).
      eexists. split; [|done]. split; cbn [o_c o_used o_taken c_net c_slots c_idx c_self c_multi]; [exact Hf'|done|done|done|done| |done| |done| |].
      * intros x' y'. rewrite Hr. destruct (decide (tk U0 (x', y'))) as [|Hn]; [done|]. cbn [c_net]. rewrite HRv. unfold upd. rewrite decide_False; [done|]. intros Hs. apply Hn. eapply tk_sameq; [exact Hs|]. tauto.
      * by apply NoDup_sadd.
      * intros p. rewrite elem_of_sadd, Ht, Hcs. split.
        -- intros [->|[? ?]]; [split; [done|rewrite ind_true by done; lia]|split; [done|lia]].
        -- intros [Hp Hc]. destruct (decide (sameq p (a, b))) as [Hs|Hs]; [left; by apply Hpxy|right]. rewrite ind_false in Hc by done. split; [done|lia].
      * intros p. rewrite Hm. split; [intros [? ?]; split; [|done]; destruct (decide _); [|done]; apply elem_of_sadd; by right|].
        intros [Hp Hn]. split; [|done]. destruct (decide _); [|done]. apply elem_of_sadd in Hp as [->|?]; done.
    + assert (RR (c_net (o_c st)) x y = RR (c_net v) x y) as R0 by (rewrite Hr, decide_False; tauto). rewrite R0.
      assert (forall p, p ∈ U0 -> cnt p (pre ++ [(a, b)]) = cnt p pre) as Hcp.
      { intros p Hp. rewrite Hcs, ind_false; [lia|]. intros Hs. apply Hin. by rewrite <- (Hpxy p Hp Hs Nxy). }
      destruct (decide (RR (c_net v) x y <> 0%Z)) as [Hw|Hw].
      * eexists. split; [|done]. split; cbn [o_c o_used o_taken c_net c_slots c_idx c_self c_multi]; [exact Hf'|done|done|done|done| |done|done| | |].
        -- intros x' y'. rewrite Hr. destruct (decide (tk U0 (x', y'))) as [|Hn]; [done|]. cbn [c_net]. rewrite HRv. unfold upd. destruct (decide (sameq (x, y) (x', y'))) as [Hs|]; [|done].
           rewrite (f_cons _ _ _ _ Hf) in Hw by done. destruct (decide (1 <= cnt (x, y) pre)) as [Hc|]; [|done]. rewrite (f_cons _ _ _ _ Hf).
           ++ rewrite <- (cnt_sameq _ _ _ Hs). by rewrite decide_True.
           ++ apply sameq_iff in Hs as [[-> ->]|[-> ->]]; done.
        -- by apply NoDup_sadd.
        -- intros p. rewrite Ht. split; intros [Hp Hc]; (split; [done|]); rewrite Hcp in *; done.
        -- intros p. cbn [c_multi]. rewrite !elem_of_sadd, Hm. split; [intros [->|[? ?]]; [split; [by left|done]|split; [by right|done]]|]. intros [[->|?] ?]; [by left|right; by split].
      * destruct (decide ((x, y) ∈ o_used st)) as [Hus|Hus]. { apply (Hu (x, y)) in Hus as [|[_ Hus]]; [done|]. cbn [fst snd] in Hus. rewrite R0 in Hus. lia. }
        destruct (setw_ok K Zr (c_net (o_c st)) x y 1 Hon Nxy Kx Ky) as (no & Eo & Hno & HRo). rewrite Eo. cbn [rbind].
        destruct (add_ok U0 HU0 (RR (c_net (o_c st))) (o_used st) x y (x, y) Hu (rel_disj _ _ Hr) Cxy (sameq_refl _) Hin) as [Hu' _].
        eexists. split; [|done]. split; cbn [o_c o_used o_taken c_net c_slots c_idx c_self c_multi]; [exact Hf'|done|done|done|done| | |done|done| |done].
        -- eapply REL_ext; [exact HRo|exact HRv|]. apply REL_upd; [done|]. tauto.
        -- by eapply USED_ext; [exact HRo|].
        -- intros p. rewrite Ht. split; intros [Hp Hc]; (split; [done|]); rewrite Hcp in *; done.
Qed.
Lemma ov_first_pass : forall sl pre st v, FS pre st v -> (forall q, q ∈ sl -> K (q.1) /\ K (q.2)) ->
  match rfold ov_edge st (zip (seq (length pre) (length sl)) sl) with
  | Ok st' => exists v', FS (pre ++ sl) st' v' /\ c_slots (o_c st') = c_slots (o_c st)
  | Err e => terr K e
  end.
Proof using HU0 D.
  induction sl as [|[a b] sl IH]; intros pre st v H HK; cbn [length seq zip zip_with rfold]; [exists v; by rewrite app_nil_r|].
  destruct (HK (a, b) ltac:(left)) as [Ka Kb]. pose proof (ov_edge_spec pre st v a b H Ka Kb) as Hc.
  destruct (ov_edge st (length pre, (a, b))) as [st'|e]; [|done]. destruct Hc as (v' & Hc & Es).
  specialize (IH (pre ++ [(a, b)]) st' v' Hc ltac:(intros; apply HK; by right)). rewrite app_length in IH. simpl in IH. rewrite Nat.add_1_r in IH.
  fold (zip (seq (S (length pre)) (length sl)) sl). destruct (rfold ov_edge st' _) as [st2|e]; [|done]. destruct IH as (v2 & H2 & Es2). rewrite <- app_assoc in H2. exists v2. split; [done|congruence].
Qed.
Lemma ov_first_inv sl st v : FS sl st v -> c_slots (o_c st) = sl -> length sl = L -> (forall x, ConfFacts.tot (ends x) sl = D x) -> (forall q, q ∈ sl -> K (q.1) /\ K (q.2)) ->
  exists v', SIM st v' /\ VInv (c_multi (o_c st) ++ o_taken st) (c_self (o_c st) ≫= fun kv => (fun si => (kv.1, si)) <$> kv.2) v' /\
    big (c_multi (o_c st) ++ o_taken st) v'.
Proof using HU0.
  intros [Hf Es Ei Ef Hon Hr Hu Hnt Hnm Ht Hm] Esl HL HD HK. assert (c_slots v = sl) as Ev by congruence.
  destruct (first_inv K Zr D L sl v Hf Ev HL HD HK) as [[Hlen Hnet Hcons Hz Htwo Hmul HndM Hidx Hdeg Hkeys HndS Hself] Hb].
  exists (CSt (c_net v) (c_slots v) (c_self v) (c_multi (o_c st) ++ o_taken st) (c_idx v)).
  assert (forall p, p ∈ c_multi (o_c st) ++ o_taken st -> can p /\ 1 <= cnt p (c_slots v)) as Hcan.
  { intros p. rewrite elem_of_app, Hm, Ht, Ev. intros [[Hp _]|[Hp Hc]]; [|split; [by apply HU0|done]]. destruct (f_multi _ _ _ _ Hf p Hp) as (? & ? & ?). split; [done|lia]. }
  assert (forall p, p ∈ c_multi (o_c st) ++ o_taken st -> exists l, dget (c_idx v) p = Some l /\ IDX l (c_slots v) (sameq p) /\ 1 <= length l) as Hl.
  { intros p Hp. destruct (Hcan p Hp) as [[Hc _] H1]. pose proof (f_idx _ _ _ _ Hf p Hc) as HI. rewrite <- Ev in HI. pose proof (IDX_len (sameq p) _ _ HI) as Hln.
    destruct (dget (c_idx v) p) as [l|]; [|simpl in Hln; lia]. exists l. change (default [] (Some l)) with l in HI, Hln. split_and!; [done..|lia]. }
  split; [|split].
  - split; cbn [c_net c_slots c_self c_multi c_idx]; try done.
    + intros x y. rewrite Hr. destruct (decide (tk U0 (x, y))) as [H1|H1], (decide (tk (o_taken st) (x, y))) as [H2|H2]; [done| | |done].
      * destruct (decide (x = y)) as [->|Hne]; [by rewrite Hz|]. rewrite (Hcons x y Hne), decide_False; [done|]. intros Hc. apply H2. apply tk_iff in H1 as (p & Hp & Hs).
        apply tk_iff. exists p. split; [|done]. apply Ht. split; [done|]. by rewrite (cnt_sameq _ _ _ Hs), <- Ev.
      * exfalso. apply H1. apply tk_iff in H2 as (p & Hp & Hs). apply tk_iff. exists p. split; [by apply Ht in Hp as [? _]|done].
    + by eapply rel_disj.
    + intros p Hp. by apply Ht in Hp as [? _].
  - rewrite Ef. split; cbn [c_net c_slots c_self c_multi c_idx]; try done.
    + intros a b Hne Hc. destruct (Htwo a b Hne Hc) as (p & Hp & Hs). exists p. split; [|done]. rewrite elem_of_app, Hm, Ht. destruct (decide (p ∈ U0)) as [Hp0|]; [|tauto].
      right. split; [done|]. rewrite (cnt_sameq _ _ _ Hs), <- Ev. lia.
    + intros p Hp. destruct (Hcan p Hp) as [[? ?] _]. done.
    + apply NoDup_app. split; [done|]. split; [|done]. intros p [_ Hp]%Hm [? _]%Ht. done.
    + intros p Hp. destruct (Hl p Hp) as (l & ? & ? & _). by exists l.
  - intros p Hp. destruct (Hl p Hp) as (l & ? & _ & ?). by exists l.
Qed.
End sim.

(** ** The two ends of a link can be compared *)
Definition cmpq (q : name * name) : Prop := is_int (q.1) = is_int (q.2).
Definition csl (st : ost) : Prop := Forall cmpq (c_slots (o_c st)).
Lemma nsort_cmp a b e : nsort a b = Ok e -> cmpq e /\ cmpq (a, b).
Proof. intros (H & _ & E)%nsort_ok. unfold cmpq. destruct H as [-> | ->]; by split. Qed.
Lemma rbind_Ok {A B} (r : res A) (f : A -> res B) b : rbind r f = Ok b -> exists a, r = Ok a /\ f a = Ok b.
Proof. destruct r as [a|]; [|done]. intros H. by exists a. Qed.
Lemma rfold_Ok {A B} (P : A -> Prop) (f : A -> B -> res A) : (forall s x s', P s -> f s x = Ok s' -> P s') ->
  forall l s s', P s -> rfold f s l = Ok s' -> P s'.
Proof.
  intros H l. induction l as [|x l IH]; intros s s' Hs; simpl; [by intros [= <-]|]. destruct (f s x) as [s1|] eqn:E; [|done]. apply IH. by eapply H.
Qed.
Ltac okstep H :=
  match type of H with
  | rbind _ _ = Ok _ => apply rbind_Ok in H as (? & ? & H)
  | (let '(_, _) := ?x in _) = Ok _ => destruct x
  | (if decide ?P then _ else _) = Ok _ => destruct (decide P)
  | (match ?x with _ => _ end) = Ok _ => destruct x eqn:?
  end.
Lemma Forall_ins {A} (P : A -> Prop) i x l : Forall P l -> P x -> Forall P (<[i := x]> l).
Proof. intros. by apply Forall_insert. Qed.
Ltac slotsok := repeat (apply Forall_ins; [|eapply proj1, nsort_cmp; eassumption]); assumption.
Lemma self_loop_csl : forall fuel st node si rnd r, csl st -> ov_self_loop fuel st node si rnd = Ok r -> csl (r.1).
Proof.
  induction fuel as [|f IH]; intros st node si rnd r Hc H; simpl in H; [done|]. repeat (okstep H; simpl in H; try done); [|by eapply IH].
  injection H as <-. cbn [fst]. match goal with H : ov_self_try _ _ _ _ _ = _ |- _ => unfold ov_self_try in H; repeat (okstep H; try done); injection H as <- end.
  unfold csl. cbn [o_c c_slots]. slotsok.
Qed.
Lemma multi_loop_csl : forall fuel st n1 n2 rnd r, csl st -> ov_multi_loop fuel st n1 n2 rnd = Ok r -> csl (r.1).
Proof.
  induction fuel as [|f IH]; intros st n1 n2 rnd r Hc H; simpl in H; [done|]. repeat (okstep H; simpl in H; try done); [|by eapply IH].
  injection H as <-. cbn [fst]. match goal with H : ov_multi_try _ _ _ _ _ = _ |- _ => unfold ov_multi_try in H; repeat (okstep H; try done); injection H as <- end;
  unfold csl; cbn [o_c c_slots]; slotsok.
Qed.
Lemma taken_loop_csl : forall fuel st n1 n2 si rnd r, csl st -> ov_taken_loop fuel st n1 n2 si rnd = Ok r -> csl (r.1).
Proof.
  induction fuel as [|f IH]; intros st n1 n2 si rnd r Hc H; simpl in H; [done|]. repeat (okstep H; simpl in H; try done); [|by eapply IH].
  injection H as <-. cbn [fst]. match goal with H : ov_taken_try _ _ _ _ _ _ = _ |- _ => unfold ov_taken_try in H; repeat (okstep H; try done); injection H as <- end.
  unfold csl. cbn [o_c c_slots]. slotsok.
Qed.
Lemma first_csl : forall l st st', rfold ov_edge st l = Ok st' -> Forall (fun t => cmpq (t.2)) l /\ c_slots (o_c st') = c_slots (o_c st).
Proof.
  induction l as [|[s [a b]] l IH]; intros st st' H; simpl in H; [by injection H as <-|].
  destruct (nsort a b) as [e|] eqn:E; [|done]. pose proof (nsort_cmp _ _ _ E) as [_ Hc]. cbn [rbind] in H. destruct e as [x y].
  match type of H with (match ?X with _ => _ end) = _ => destruct X as [s1|] eqn:E1; [|done] end.
  destruct (IH _ _ H) as [HF Es]. split; [by constructor|]. rewrite Es. clear -E1. repeat (okstep E1; try done); by injection E1 as <-.
Qed.

(** ** One layer combination *)
(** After the first pass over the shuffled stubs. *)
Lemma oc_start used degs sh : (forall p, p ∈ used -> can p) -> sh ≡ₚ stubs_of degs ->
  exists n, build (new_net 0 0 false true) (degs ≫= fun xk => if decide (xk.2 = 0) then [OpAddNode (xk.1) None] else []) = Ok n /\
  (forall q, q ∈ pair_up sh -> keyP degs (q.1) /\ keyP degs (q.2)) /\
  match rfold ov_edge (OSt (CSt n (pair_up sh) [] [] []) used []) (zip (seq 0 (length (pair_up sh))) (pair_up sh)) with
  | Ok st => exists v, FS (keyP degs) (zeroP degs) used (pair_up sh) st v /\ c_slots (o_c st) = pair_up sh
  | Err e => terr (keyP degs) e
  end.
Proof.
  intros HU0 Hsh. rewrite zeros_ops. destruct (isolated_net (zeros degs)) as (n & -> & Hh & He & Hrd). exists n. split; [done|].
  assert (forall q, q ∈ pair_up sh -> keyP degs (q.1) /\ keyP degs (q.2)) as HK.
  { assert (forall x, x ∈ sh -> keyP degs x) as Hk.
    { intros x. rewrite Hsh. rewrite elem_of_stubs. intros (k & Hk & _). apply elem_of_list_fmap. by exists (x, k). }
    intros q Hq. apply elem_of_pair_up in Hq as [? ?]. auto. }
  assert (First (keyP degs) (zeroP degs) [] (CSt n (pair_up sh) [] [] [])) as HF.
  { split; cbn [c_net c_multi c_idx c_self]; try done.
    - split; [done|]. split.
      + intros x Hx%He%elem_of_zeros. apply elem_of_list_fmap. by exists (x, 0).
      + intros x Hx. by apply He, elem_of_zeros.
    - intros a b Hne. unfold RR. by rewrite Hrd.
    - intros a. apply Hrd.
    - intros a b Hne Hc. simpl in Hc. lia.
    - constructor.
    - intros p Hp. by apply elem_of_nil in Hp.
    - intros p _. split; [constructor|]. intros s. simpl. rewrite elem_of_nil. split; [done|]. by intros (q & ? & _).
    - constructor.
    - intros x. split; [constructor|]. intros s. simpl. rewrite elem_of_nil. split; [done|]. by intros (q & ? & _). }
  assert (FS (keyP degs) (zeroP degs) used [] (OSt (CSt n (pair_up sh) [] [] []) used []) (CSt n (pair_up sh) [] [] [])) as HFS.
  { split; cbn [o_c o_used o_taken c_net c_slots c_idx c_self c_multi]; try done.
    - apply HF.
    - intros x y. unfold RR. rewrite Hrd. by destruct (decide _).
    - intros p. unfold RR. rewrite Hrd. tauto.
    - constructor.
    - constructor.
    - intros p. rewrite elem_of_nil. simpl. split; [done|]. intros [_ ?]. lia.
    - intros p. rewrite elem_of_nil. tauto. }
  split; [done|].
  exact (ov_first_pass (keyP degs) (zeroP degs) (fun x => occ x (stubs_of degs)) used HU0 (pair_up sh) [] _ _ HFS HK).
Qed.
Lemma oc_comb_run used degs r : (forall p, p ∈ used -> can p) ->
  match oc_comb used degs r with
  | Ok (n, u) => exists st, c_net st = n /\ dinv degs [] [] st /\ Forall cmpq (c_slots st) /\ USED used (RR n) u /\ DISJ used (RR n)
  | Err e => conf_failure degs e
  end.
Proof.
  intros HU0. unfold oc_comb. assert (exists n0, build (new_net 0 0 false true) (degs ≫= fun xk => if decide (xk.2 = 0) then [OpAddNode (xk.1) None] else []) = Ok n0) as [n0 En0].
  { rewrite zeros_ops. destruct (isolated_net (zeros degs)) as (n & ? & _). eauto. }
  rewrite En0. cbn [rbind].
  destruct (decide (Nat.even (sum_list (degs.*2)) = true /\ sum_list (degs.*2) <= length degs * (length degs - 1))) as [[Hev Hle]|Hno]; [|by left].
  destruct (decide (r_shuffle r ≡ₚ degs ≫= _)) as [Hsh|Hsh]; [|by do 3 right]. set (sh := r_shuffle r) in *.
  destruct (oc_start used degs sh HU0 Hsh) as (n & En & HK & H). assert (n0 = n) as -> by congruence.
  assert (length sh = sum_list (degs.*2)) as Hl. { rewrite Hsh. apply length_stubs. }
  destruct (rfold ov_edge _ _) as [st|e] eqn:X1; cbn [rbind]; [|apply cerr_failure; right; by left]. destruct H as (v & H & Es).
  destruct (ov_first_inv (keyP degs) (zeroP degs) (fun x => occ x (stubs_of degs)) (L_of degs) used HU0 (pair_up sh) st v H Es) as (v1 & Hs1 & Hi1 & Hb1).
  { rewrite length_pair_up, Hl. done. }
  { intros x. rewrite tot_pair_up; [|by rewrite Hl]. by rewrite Hsh. }
  { done. }
  unfold ov_self_phase. pose proof (ov_self_phase_spec (keyP degs) (zeroP degs) _ (L_of degs) used HU0 _ _ st v1 (r_draws r) Hs1 Hi1 Hb1) as Hsp.
  destruct (rfold _ (st, r_draws r) _) as [[st2 rnd2]|e] eqn:X2; cbn [rbind]; [|by apply cerr_failure]. destruct Hsp as (v2 & Hs2 & Hi2 & Em2 & Ei2 & Et2).
  destruct (decide (_ /\ _)) as [[Hom Hot]|]; [|by do 3 right].
  assert (big (r_multi r ++ r_taken r) v2) as Hb2. { intros p Hp. rewrite Ei2. apply Hb1. by rewrite <- Hom, <- Hot. }
  assert (dinv degs (r_multi r ++ r_taken r) [] v2) as Hi2'. { eapply Inv_perm; [|done|exact Hi2]. by rewrite Hom, Hot. }
  assert (forall p, p ∈ r_multi r -> p ∉ o_taken st2) as Hnt.
  { intros p Hp Hp2. pose proof (v_nd _ _ _ _ _ _ _ Hi2') as Hnd. rewrite Et2, <- Hot in Hp2. apply NoDup_app in Hnd as (_ & Hnd & _). by apply (Hnd p). }
  pose proof (ov_multi_phase_spec (keyP degs) (zeroP degs) _ (L_of degs) used HU0 (r_taken r) (r_multi r) st2 v2 rnd2 Hs2 Hi2' Hb2 Hnt) as Hmp.
  destruct (rfold ov_multi_edge _ _) as [[st3 rnd3]|e] eqn:X3; cbn [rbind]; [|by apply cerr_failure]. destruct Hmp as (v3 & Hs3 & Hi3 & Et3).
  assert (r_taken r ≡ₚ o_taken st3) as Ht3. { rewrite Et3, Et2. done. }
  pose proof (tinv_of (keyP degs) (zeroP degs) _ (L_of degs) used HU0 st3 v3 (r_taken r) Hs3 Hi3 Ht3) as HT.
  assert (forall p, p ∈ r_taken r -> is_Some (dget (c_idx (o_c st3)) p)) as Hd. { intros p Hp. destruct (v_idx _ _ _ _ _ _ _ Hi3 p Hp) as (l & Hl' & _). exists l. by rewrite (s_idx _ _ _ _ _ Hs3). }
  pose proof (ov_taken_phase_spec (keyP degs) (zeroP degs) _ (L_of degs) used HU0 (r_taken r) st3 rnd3 Hd HT) as Htp.
  destruct (rfold ov_taken_edge _ _) as [[st4 rnd4]|e] eqn:X4; cbn [rbind]; [|by apply cerr_failure]. cbn [fst].
  exists (CSt (c_net (o_c st4)) (c_slots (o_c st4)) [] [] []). split; [done|]. split; [by apply (tinv_end _ _ _ _ used HU0 st4)|]. split; [|split; apply Htp].
  cbn [c_slots]. assert (csl st) as C1.
  { unfold csl. rewrite Es. apply first_csl in X1 as [HC _]. apply Forall_forall. intros q Hq. rewrite Forall_forall in HC.
    apply elem_of_list_lookup in Hq as [i Hi]. apply (HC (i, q)). apply elem_of_list_lookup. exists i. rewrite lookup_zip_with, Hi.
    rewrite lookup_seq_lt by (by apply lookup_lt_Some in Hi). done. }
  assert (csl st2) as C2.
  { apply (rfold_Ok (fun s => csl (s.1))) in X2; [done| |done]. intros s x s' Hs Hx. by eapply self_loop_csl. }
  assert (csl st3) as C3.
  { apply (rfold_Ok (fun s => csl (s.1))) in X3; [done| |done]. intros s x s' Hs Hx. unfold ov_multi_edge in Hx. destruct (dget _ x); [|done].
    apply (rfold_Ok (fun s => csl (s.1))) in Hx; [done| |done]. intros s1 x1 s1' ? ?. by eapply multi_loop_csl. }
  apply (rfold_Ok (fun s => csl (s.1))) in X4; [done| |done]. intros s x s' Hs Hx. unfold ov_taken_edge in Hx. destruct (dget _ x); [|done].
  apply (rfold_Ok (fun s => csl (s.1))) in Hx; [done| |done]. intros s1 x1 s1' ? ?. by eapply taken_loop_csl.
Qed.
