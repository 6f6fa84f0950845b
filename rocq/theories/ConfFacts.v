(** * Lemmas about the configuration model *)
From Verif Require Export Conf ModelsFacts.
From Verif Require Import TransFacts MpxHist MpxIter PropsNet PropsTrans.

(** ** Sorting two names *)
Lemma nsort_ok a b p : nsort a b = Ok p -> (p = (a, b) \/ p = (b, a)) /\ nsort (p.1) (p.2) = Ok p /\ is_int a = is_int b.
Proof.
  unfold nsort, py_gt. destruct (eqb (is_int a) (is_int b)) eqn:E; [|done]. apply eqb_prop in E. simpl.
  destruct (name_leb a b) eqn:Hl; simpl; intros [= <-]; cbn [fst snd].
  - split; [by left|]. split; [|done]. rewrite E, eqb_reflx. simpl. by rewrite Hl.
  - split; [by right|]. split; [|done]. rewrite E, eqb_reflx. simpl. destruct (name_leb_total a b) as [H|H]; [congruence|]. by rewrite H.
Qed.
Lemma nsort_err a b e : nsort a b = Err e -> e = TypeError /\ is_int a <> is_int b.
Proof.
  unfold nsort, py_gt. destruct (eqb (is_int a) (is_int b)) eqn:E; [done|]. intros [= <-]. split; [done|]. by apply eqb_false_iff in E.
Qed.
(** The same pair, in either order. *)
Definition sameq (p q : name * name) : Prop := p = q \/ p = (q.2, q.1).
Global Instance sameq_dec p q : Decision (sameq p q).
Proof. unfold sameq. apply _. Defined.
Lemma sameq_refl p : sameq p p.
Proof. by left. Qed.
Lemma sameq_sym p q : sameq p q -> sameq q p.
Proof. intros [->| ->]; [by left|]. right. by destruct q. Qed.
Lemma sameq_trans p q r : sameq p q -> sameq q r -> sameq p r.
Proof. intros [->| ->] [->| ->]; unfold sameq; simpl; auto. left. by destruct r. Qed.
Lemma sameq_iff a b x y : sameq (a, b) (x, y) <-> a = x /\ b = y \/ a = y /\ b = x.
Proof. unfold sameq. simpl. split; [intros [[= -> ->]|[= -> ->]]; auto|]. intros [[-> ->]|[-> ->]]; auto. Qed.
Lemma nsort_sameq a b p : nsort a b = Ok p -> sameq p (a, b).
Proof. intros H%nsort_ok. destruct H as ([->| ->] & _); [by left|by right]. Qed.
Lemma nsort_canon p q : nsort (p.1) (p.2) = Ok p -> nsort (q.1) (q.2) = Ok q -> sameq p q -> p = q.
Proof.
  destruct p as [a b], q as [c d]. intros Hp Hq [->|E]; [done|]. simpl in *. injection E as -> ->.
  unfold nsort in *. destruct (py_gt d c) as [g|] eqn:E1; [|done]. destruct (py_gt c d) as [g'|] eqn:E2; [|done]. simpl in *.
  destruct (decide (c = d)) as [->|Hne]; [done|]. destruct g; [congruence|]. destruct g'; [congruence|].
  assert (is_int c = is_int d) as E. { unfold py_gt in E1. destruct (eqb (is_int d) (is_int c)) eqn:E; [|done]. by apply eqb_prop in E. }
  destruct (py_gt_total c d E Hne); congruence.
Qed.

(** ** Additive measures of lists of pairs *)
Fixpoint tot (f : name * name -> nat) (sl : list (name * name)) : nat := match sl with [] => 0 | q :: sl => f q + tot f sl end.
Definition ind (P : name * name -> Prop) `{!forall q, Decision (P q)} (q : name * name) : nat := if decide (P q) then 1 else 0.
Notation cnt p := (tot (ind (sameq p))).
Definition ends (x : name) (q : name * name) : nat := (if decide (x = q.1) then 1 else 0) + (if decide (x = q.2) then 1 else 0).
Lemma tot_cons f q sl : tot f (q :: sl) = f q + tot f sl.
Proof. done. Qed.
Lemma tot_app f l1 l2 : tot f (l1 ++ l2) = tot f l1 + tot f l2.
Proof. induction l1 as [|q l1 IH]; simpl; [done|]. lia. Qed.
Global Instance tot_proper f : Proper ((≡ₚ) ==> (=)) (tot f).
Proof. intros l1 l2 H. induction H; simpl; lia. Qed.
Lemma ind_true P `{!forall q, Decision (P q)} q : P q -> ind P q = 1.
Proof. intros. unfold ind. by rewrite decide_True. Qed.
Lemma ind_false P `{!forall q, Decision (P q)} q : ~ P q -> ind P q = 0.
Proof. intros. unfold ind. by rewrite decide_False. Qed.
Lemma cnt_pos p sl : 1 <= cnt p sl <-> exists q, q ∈ sl /\ sameq p q.
Proof.
  induction sl as [|q sl IH].
  - split; [unfold tot; simpl; lia|]. intros (q & ?%elem_of_nil & _). done.
  - rewrite tot_cons. unfold ind at 1. destruct (decide (sameq p q)) as [H|H].
    + split; [|lia]. intros _. exists q. split; [left|done].
    + simpl. rewrite IH. split; [intros (q' & ? & ?); exists q'; split; [by right|done]|].
      intros (q' & [->|?]%elem_of_cons & ?); [done|]. by exists q'.
Qed.
Lemma cnt_sameq p q sl : sameq p q -> cnt p sl = cnt q sl.
Proof.
  intros H. induction sl as [|r sl IH]; [done|]. cbn [tot]. rewrite IH. f_equal. unfold ind.
  destruct (decide (sameq p r)) as [H1|H1], (decide (sameq q r)) as [H2|H2]; [done| | |done]; exfalso.
  - apply H2. eapply sameq_trans; [by apply sameq_sym|done].
  - apply H1. by eapply sameq_trans.
Qed.

(** ** Index lists *)
Definition IDX (l : list nat) (sl : list (name * name)) (P : name * name -> Prop) : Prop :=
  NoDup l /\ forall s, s ∈ l <-> exists q, sl !! s = Some q /\ P q.
Lemma IDX_len P `{!forall q, Decision (P q)} sl : forall l, IDX l sl P -> length l = tot (ind P) sl.
Proof.
  induction sl as [|q sl IH] using rev_ind; intros l [Hnd Hl].
  - destruct l as [|s l]; [done|]. exfalso. destruct (proj1 (Hl s) ltac:(left)) as (? & ? & _). done.
  - rewrite tot_app. cbn [tot]. set (l' := filter (fun s => s <> length sl) l).
    assert (IDX l' sl P) as Hl'.
    { split; [by apply NoDup_filter|]. intros s. unfold l'. rewrite elem_of_list_filter, Hl. split.
      - intros (Hs & q' & Hq & Hp). apply lookup_app_Some in Hq as [Hq|[Hs1 Hq]]; [eauto|]. exfalso. apply list_lookup_singleton_Some in Hq as [Hq _]. lia.
      - intros (q' & Hq & Hp). pose proof (lookup_lt_Some _ _ _ Hq). split; [lia|]. exists q'. by rewrite lookup_app_l by lia. }
    rewrite <- (IH l' Hl'). unfold ind. assert (length sl ∈ l <-> P q) as Hq.
    { rewrite Hl. split; [|intros Hp; exists q; split; [by apply list_lookup_middle|done]].
      intros (q' & Hq' & Hp). rewrite list_lookup_middle in Hq' by done. by injection Hq' as ->. }
    destruct (decide (P q)) as [Hp|Hp].
    + assert (l ≡ₚ length sl :: l') as ->; [|simpl; lia]. apply NoDup_Permutation; [done| |].
      * constructor; [unfold l'; rewrite elem_of_list_filter; by intros [? _]|apply Hl'].
      * intros s. unfold l'. rewrite elem_of_cons, elem_of_list_filter. destruct (decide (s = length sl)) as [->|]; naive_solver.
    + assert (l ≡ₚ l') as ->; [|simpl; lia]. apply NoDup_Permutation; [done|apply Hl'|].
      intros s. unfold l'. rewrite elem_of_list_filter. destruct (decide (s = length sl)) as [->|]; naive_solver.
Qed.
Lemma IDX_ins l sl P i q' : IDX l sl P -> i ∉ l -> ~ P q' -> IDX l (<[i := q']> sl) P.
Proof.
  intros [Hnd Hl] Hi Hp. split; [done|]. intros s. rewrite Hl. destruct (decide (s = i)) as [->|Hne]; [|by rewrite list_lookup_insert_ne].
  split; [intros H; by apply Hl in H|]. intros (q & Hq & Hpq). destruct (decide (i < length sl)).
  - rewrite list_lookup_insert in Hq by done. by injection Hq as <-.
  - rewrite list_insert_ge in Hq by lia. eauto.
Qed.
Lemma IDX_del l sl P i q' : IDX l sl P -> ~ P q' -> IDX (filter (fun s => s <> i) l) (<[i := q']> sl) P.
Proof.
  intros [Hnd Hl] Hp. split; [by apply NoDup_filter|]. intros s. rewrite elem_of_list_filter, Hl. split.
  - intros [Hs H]. by rewrite list_lookup_insert_ne.
  - intros (q & Hq & Hpq). assert (s <> i) as Hne; [|by rewrite list_lookup_insert_ne in Hq; eauto]. intros ->.
    apply list_lookup_insert_Some in Hq as [(_ & -> & _)|[? _]]; done.
Qed.
Lemma ins_perm {A} (sl : list A) i q q' : sl !! i = Some q -> exists k, sl ≡ₚ q :: k /\ <[i := q']> sl ≡ₚ q' :: k.
Proof.
  intros H. exists (take i sl ++ drop (S i) sl). split.
  - rewrite <- (take_drop_middle sl i q H) at 1. by rewrite Permutation_middle.
  - rewrite insert_take_drop by by eapply lookup_lt_Some. by rewrite Permutation_middle.
Qed.

(** ** Weights against multiplicities *)
Definition CONS (R : name -> name -> Z) (sl : list (name * name)) : Prop :=
  forall a b, a <> b -> R a b = (if decide (1 <= cnt (a, b) sl) then 1%Z else 0%Z).
Definition upd (R : name -> name -> Z) (a b : name) (w : Z) (x y : name) : Z := if decide (sameq (a, b) (x, y)) then w else R x y.
Definition TWO (sl : list (name * name)) (M : list (name * name)) : Prop :=
  forall a b, a <> b -> 2 <= cnt (a, b) sl -> exists p, p ∈ M /\ sameq p (a, b).
Lemma CONS_perm R sl sl' : sl ≡ₚ sl' -> CONS R sl -> CONS R sl'.
Proof. intros Hp H a b Hne. rewrite (H a b Hne). assert (cnt (a, b) sl = cnt (a, b) sl') as Hc by by rewrite Hp. by rewrite Hc. Qed.
Lemma TWO_perm M sl sl' : sl ≡ₚ sl' -> TWO sl M -> TWO sl' M.
Proof. intros Hp H a b Hne Hc. rewrite <- Hp in Hc. by apply H. Qed.
Lemma CONS_rem R q k a b : CONS R (q :: k) -> sameq (a, b) q -> cnt (a, b) k = 0 -> CONS (upd R a b 0) k.
Proof.
  intros H Hq Hc x y Hne. unfold upd. destruct (decide (sameq (a, b) (x, y))) as [Hs|Hs].
  - rewrite <- (cnt_sameq _ _ _ Hs), Hc. done.
  - rewrite (H x y Hne). rewrite tot_cons, ind_false; [done|]. intros Hx. apply Hs. eapply sameq_trans; [exact Hq|by apply sameq_sym].
Qed.
Lemma CONS_add R q k a b : CONS R k -> sameq (a, b) q -> CONS (upd R a b 1) (q :: k).
Proof.
  intros H Hq x y Hne. unfold upd. rewrite tot_cons. destruct (decide (sameq (a, b) (x, y))) as [Hs|Hs].
  - rewrite ind_true; [done|]. eapply sameq_trans; [by apply sameq_sym|done].
  - rewrite (H x y Hne). rewrite ind_false; [done|]. intros Hx. apply Hs. eapply sameq_trans; [exact Hq|by apply sameq_sym].
Qed.
Lemma CONS_remself R z k : CONS R ((z, z) :: k) -> CONS R k.
Proof. intros H x y Hne. rewrite (H x y Hne), tot_cons, ind_false; [done|]. rewrite sameq_iff. intros [[-> ->]|[-> ->]]; done. Qed.
Lemma CONS_remdup R q k : CONS R (q :: k) -> 1 <= cnt q k -> CONS R k.
Proof.
  intros H Hc x y Hne. rewrite (H x y Hne), tot_cons. destruct (decide (sameq (x, y) q)) as [Hs|Hs]; [|by rewrite ind_false].
  rewrite (cnt_sameq _ _ _ Hs). by rewrite !decide_True by lia.
Qed.
Lemma TWO_rem q k M : TWO (q :: k) M -> TWO k M.
Proof. intros H a b Hne Hc. apply H; [done|]. rewrite tot_cons. lia. Qed.
Lemma TWO_add q k M : TWO k M -> cnt q k = 0 -> TWO (q :: k) M.
Proof.
  intros H Hc a b Hne. rewrite tot_cons. unfold ind at 1. destruct (decide (sameq (a, b) q)) as [Hs|Hs]; [|by apply H].
  rewrite (cnt_sameq _ _ _ Hs). lia.
Qed.
Lemma CONS_zero R sl a b : CONS R sl -> a <> b -> R a b = 0%Z -> cnt (a, b) sl = 0.
Proof. intros H Hne HR. rewrite (H a b Hne) in HR. destruct (decide _); [done|lia]. Qed.
Lemma CONS_ext R R' sl : CONS R sl -> (forall x y, R' x y = R x y) -> CONS R' sl.
Proof. intros H He a b Hne. by rewrite He, (H a b Hne). Qed.
Lemma list_as_map {A} (d : A) sl : sl = (fun s => default d (sl !! s)) <$> seq 0 (length sl).
Proof.
  apply list_eq. intros i. rewrite list_lookup_fmap. destruct (decide (i < length sl)) as [H|H].
  - rewrite lookup_seq_lt by done. simpl. by destruct (lookup_lt_is_Some_2 _ _ H) as [x ->].
  - rewrite lookup_seq_ge by lia. apply lookup_ge_None. lia.
Qed.
Lemma perm_at {A} (d : A) sl sl' ix : NoDup ix -> (forall i, i ∈ ix -> i < length sl) -> length sl' = length sl ->
  (forall s, s ∉ ix -> sl' !! s = sl !! s) ->
  exists k, sl ≡ₚ ((fun s => default d (sl !! s)) <$> ix) ++ k /\ sl' ≡ₚ ((fun s => default d (sl' !! s)) <$> ix) ++ k.
Proof.
  intros Hnd Hix Hlen Heq. assert (ix ⊆+ seq 0 (length sl)) as Hs.
  { apply NoDup_submseteq; [done|]. intros i Hi%Hix. apply elem_of_seq. lia. }
  apply submseteq_Permutation in Hs as [rest Hr]. exists ((fun s => default d (sl !! s)) <$> rest). split.
  - rewrite (list_as_map d sl) at 1. by rewrite Hr, fmap_app.
  - rewrite (list_as_map d sl') at 1. rewrite Hlen, Hr, fmap_app. f_equiv.
    assert (forall s, s ∈ rest -> s ∉ ix) as Hd.
    { pose proof (NoDup_seq 0 (length sl)) as Hn. rewrite Hr in Hn. apply NoDup_app in Hn as (_ & Hn & _). intros s Hs Hi. by apply (Hn s). }
    replace ((fun s => default d (sl' !! s)) <$> rest) with ((fun s => default d (sl !! s)) <$> rest); [done|].
    apply list_fmap_ext. intros i s Hi. rewrite Heq; [done|]. apply Hd. by eapply elem_of_list_lookup_2.
Qed.

(** ** The invariant *)
Section conf.
Variables (K Zr : name -> Prop) (D : name -> nat) (L : nat).
Definition RR (n : mlnet) (a b : name) : Z := rd n [a] [b].
Definition NET (n : mlnet) : Prop :=
  (exists h, hist 0 0 false true h n) /\ (forall x, has_elem n 0 x -> K x) /\ (forall x, Zr x -> has_elem n 0 x).
Lemma NET_asp n : NET n -> aspects n = 0.
Proof. intros [[h H] _]. by destruct (hist_inv _ _ _ _ _ _ H). Qed.
Lemma getw_ok n a b : NET n -> getw n a b = Ok (RR n a b).
Proof.
  intros H. unfold getw, RR. rewrite (getitem_names n [a; b] [a] [b]); [done|]. rewrite (NET_asp _ H). exact (names_short 0 a b [] eq_refl).
Qed.
Lemma setw_ok n a b w : NET n -> a <> b -> K a -> K b -> exists n', setw n a b w = Ok n' /\ NET n' /\ forall x y, RR n' x y = upd (RR n) a b w x y.
Proof.
  intros [[h H] [HK HZ]] Hne Ka Kb. unfold setw.
  destruct (do_op_ok 0 0 false true h n (OpSet [a; b] w) H) as [n' E].
  { exists [a], [b], w. split; [done|]. intros _ _ [= ?]. done. }
  exists n'. split; [done|]. pose proof (do_op_hist _ _ _ _ _ _ _ _ H E) as H'. split; [split; [eauto|split]|].
  - intros x Hx. rewrite has_elem_sl, (hist_sl _ _ _ _ _ _ H') in Hx. destruct Hx as (o & [Ho|Ho%elem_of_list_singleton]%elem_of_app & Hm).
    + apply HK. rewrite has_elem_sl, (hist_sl _ _ _ _ _ _ H). eauto.
    + subst o. destruct Hm as (a' & b' & w' & Hw & Hm). apply writes_spec in Hw.
      change (Some ([a], [b], w) = Some (a', b', w')) in Hw. injection Hw as <- <- <-. simpl in Hm. destruct Hm as [[= <-]|[= <-]]; done.
  - intros x Hx%HZ. rewrite has_elem_sl, (hist_sl _ _ _ _ _ _ H) in Hx. rewrite has_elem_sl, (hist_sl _ _ _ _ _ _ H').
    destruct Hx as (o & Ho & Hm). exists o. split; [|done]. apply elem_of_app. by left.
  - intros x y. unfold RR, upd. rewrite (hist_refines _ _ _ _ _ _ H'), (hist_refines _ _ _ _ _ _ H), spec_run_snoc. unfold spec_step.
    change (write_of 0 (OpSet [a; b] w)) with (Some ([a], [b], w)). cbv iota beta.
    destruct (decide (hit false [a] [b] [x] [y])) as [Hh|Hh], (decide (sameq (a, b) (x, y))) as [Hs|Hs]; try done; exfalso.
    + apply Hs, sameq_iff. destruct Hh as [[[= ->] [= ->]]|(_ & [= ->] & [= ->])]; auto.
    + apply Hh. apply sameq_iff in Hs as [[-> ->]|[-> ->]]; [by left|by right].
Qed.
Lemma puts_ok ws : forall n, NET n -> (forall q, q ∈ ws -> (q.1).1 <> (q.1).2 /\ K ((q.1).1) /\ K ((q.1).2)) ->
  exists n', rfold put n ws = Ok n' /\ NET n' /\
    forall x y, RR n' x y = foldl (fun R q => upd R ((q.1).1) ((q.1).2) (q.2)) (RR n) ws x y.
Proof.
  induction ws as [|q ws IH]; intros n H Hw; cbn [rfold foldl]; [by exists n|]. destruct (Hw q ltac:(left)) as (Hne & Ka & Kb).
  unfold put at 1. destruct (setw_ok n _ _ (q.2) H Hne Ka Kb) as (n1 & -> & H1 & HR1).
  destruct (IH n1 H1 ltac:(intros; apply Hw; by right)) as (n' & -> & H' & HR). exists n'. split; [done|]. split; [done|].
  intros x y. rewrite HR. clear -HR1. revert HR1. generalize (RR n1), (upd (RR n) (q.1).1 (q.1).2 (q.2)). induction ws as [|q' ws IH]; intros R R' HE; cbn [foldl]; [done|].
  apply IH. intros x' y'. unfold upd. by rewrite HE.
Qed.
Definition terr (e : exn) : Prop := e = TypeError /\ exists a b, K a /\ K b /\ is_int a <> is_int b.
Lemma nsort_terr a b e : K a -> K b -> nsort a b = Err e -> terr e.
Proof. intros Ka Kb [-> H]%nsort_err. split; [done|]. eauto. Qed.

Record Inv (M : list (name * name)) (S : list (name * nat)) (st : cst) : Prop := {
  v_len : length (c_slots st) = L;
  v_net : NET (c_net st);
  v_cons : CONS (RR (c_net st)) (c_slots st);
  v_self0 : forall a, RR (c_net st) a a = 0%Z;
  v_two : TWO (c_slots st) M;
  v_multi : forall p, p ∈ M -> p ∈ c_multi st /\ nsort (p.1) (p.2) = Ok p /\ p.1 <> p.2;
  v_nd : NoDup M;
  v_idx : forall p, p ∈ M -> exists l, dget (c_idx st) p = Some l /\ IDX l (c_slots st) (sameq p);
  v_deg : forall x, tot (ends x) (c_slots st) = D x;
  v_keys : forall q, q ∈ c_slots st -> K (q.1) /\ K (q.2);
  v_snd : NoDup S;
  v_selfs : forall x s, (x, s) ∈ S <-> c_slots st !! s = Some (x, x)
}.
Definition big (M : list (name * name)) (st : cst) : Prop :=
  forall p, p ∈ M -> exists l, dget (c_idx st) p = Some l /\ 1 <= length l.
Definition two_left (p : name * name) (st : cst) : Prop := exists l, dget (c_idx st) p = Some l /\ 2 <= length l.

(** A drawn edge that is not parallel to another. *)
Lemma single_edge M S st e q p : Inv M S st -> c_slots st !! e = Some q -> nsort (q.1) (q.2) = Ok p -> p ∉ c_multi st -> q.1 <> q.2 ->
  cnt p (c_slots st) = 1.
Proof.
  intros H He Hp Hm Hne. pose proof (nsort_sameq _ _ _ Hp) as Hs. pose proof (nsort_ok _ _ _ Hp) as (_ & Hpp & _).
  assert (1 <= cnt p (c_slots st)). { apply cnt_pos. exists q. split; [by eapply elem_of_list_lookup_2|]. by destruct q. }
  destruct (decide (2 <= cnt p (c_slots st))) as [H2|]; [|lia]. exfalso. destruct p as [a b].
  assert (a <> b) as Hab. { apply sameq_iff in Hs as [[-> ->]|[-> ->]]; congruence. }
  destruct (v_two _ _ _ H a b Hab H2) as (p' & Hp' & Hs'). destruct (v_multi _ _ _ H p' Hp') as (Hm' & Hc & _).
  assert (p' = (a, b)) as -> by by apply nsort_canon. done.
Qed.
(** A pair that is not linked is not pending. *)
Lemma pending_linked M S st a b p : Inv M S st -> big M st -> p ∈ M -> a <> b -> RR (c_net st) a b = 0%Z -> ~ sameq p (a, b).
Proof.
  intros H Hb Hp Hne H0 Hs. destruct (Hb p Hp) as (l & Hl & H2). destruct (v_idx _ _ _ H p Hp) as (l' & Hl' & HI). assert (l' = l) as -> by congruence.
  pose proof (IDX_len (sameq p) _ _ HI) as Hlen. pose proof (CONS_zero _ _ _ _ (v_cons _ _ _ H) Hne H0) as Hc. rewrite (cnt_sameq _ _ _ Hs) in Hlen. lia.
Qed.
Lemma NoDup5 {A} (a b c d e : A) : NoDup [a; b; c; d; e] -> a <> b /\ a <> c /\ a <> d /\ a <> e /\ b <> c /\ b <> d /\ b <> e /\ c <> d /\ c <> e /\ d <> e.
Proof. rewrite !NoDup_cons, !not_elem_of_cons. tauto. Qed.
Lemma NoDup6 {A} (a b c d e f : A) : NoDup [a; b; c; d; e; f] -> a <> b /\ NoDup [a; c; d; e; f] /\ NoDup [b; c; d; e; f].
Proof. rewrite !NoDup_cons, !not_elem_of_cons. tauto. Qed.
Lemma orient5 a q1 q2 p1 p2 : NoDup [a; q1.1; q1.2; q2.1; q2.2] -> nsort (q1.1) (q1.2) = Ok p1 -> nsort (q2.1) (q2.2) = Ok p2 ->
  NoDup [a; p1.1; p1.2; p2.1; p2.2].
Proof.
  intros H [[->| ->] _]%nsort_ok [[->| ->] _]%nsort_ok; cbn [fst snd]; [done| | |]; revert H; rewrite !NoDup_cons, !not_elem_of_cons; intros; destruct_and!; split_and!; auto using not_elem_of_nil, NoDup_nil_2.
Qed.
Lemma ends_sameq x p q : sameq p q -> ends x p = ends x q.
Proof. intros [->| ->]; [done|]. unfold ends. simpl. lia. Qed.
Lemma upd_self R a b w x : a <> b -> upd R a b w x x = R x x.
Proof. intros H. unfold upd. rewrite decide_False; [done|]. rewrite sameq_iff. intros [[-> ->]|[-> ->]]; done. Qed.
Lemma cnt_cons_ne p q k : ~ sameq p q -> cnt p (q :: k) = cnt p k.
Proof. intros H. rewrite tot_cons, ind_false; done. Qed.
Lemma cnt_cons_eq p q k : sameq p q -> cnt p (q :: k) = S (cnt p k).
Proof. intros H. rewrite tot_cons, ind_true; done. Qed.
Lemma slot_ok st e : e < length (c_slots st) -> exists q, slot st e = Ok q /\ c_slots st !! e = Some q.
Proof. intros H. unfold slot. destruct (lookup_lt_is_Some_2 _ _ H) as [q ->]. by exists q. Qed.
Lemma sorted_pair_keys M S st e q p : Inv M S st -> c_slots st !! e = Some q -> nsort (q.1) (q.2) = Ok p -> K (p.1) /\ K (p.2).
Proof.
  intros H He Hp. destruct (v_keys _ _ _ H q ltac:(by eapply elem_of_list_lookup_2)). by destruct (nsort_ok _ _ _ Hp) as [[-> | ->] _].
Qed.
Lemma three_ins {A} (sl : list A) i j k a b c : NoDup [i; j; k] -> i < length sl -> j < length sl -> k < length sl ->
  let sl' := <[k := c]> (<[j := b]> (<[i := a]> sl)) in
  sl' !! i = Some a /\ sl' !! j = Some b /\ sl' !! k = Some c /\ (forall s, s ∉ [i; j; k] -> sl' !! s = sl !! s) /\ length sl' = length sl.
Proof.
  rewrite !NoDup_cons, !not_elem_of_cons. intros Hn Hi Hj Hk sl'. destruct_and!. unfold sl'. split_and!.
  - rewrite !list_lookup_insert_ne by done. by apply list_lookup_insert.
  - rewrite list_lookup_insert_ne by done. apply list_lookup_insert. by rewrite insert_length.
  - apply list_lookup_insert. by rewrite !insert_length.
  - intros s. rewrite !not_elem_of_cons. intros; destruct_and!. by rewrite !list_lookup_insert_ne.
  - by rewrite !insert_length.
Qed.

Lemma self_try_spec M S st node si e1 e2 : Inv M ((node, si) :: S) st -> big M st ->
  e1 <> e2 -> e1 < length (c_slots st) -> e2 < length (c_slots st) ->
  match self_try st node si e1 e2 with
  | Ok (Some st') => Inv M S st' /\ c_multi st' = c_multi st /\ c_idx st' = c_idx st
  | Ok None => True
  | Err e => terr e
  end.
Proof.
  intros H Hb He H1 H2. pose proof H as HI. destruct H as [Hlen Hnet Hcons Hz Htwo Hmul HndM Hidx Hdeg Hkeys HndS Hself].
  unfold self_try. destruct (slot_ok st e1 H1) as (q1 & -> & Q1). destruct (slot_ok st e2 H2) as (q2 & -> & Q2). cbn [rbind].
  pose proof (Hkeys q1 ltac:(by eapply elem_of_list_lookup_2)) as [K1 K1']. pose proof (Hkeys q2 ltac:(by eapply elem_of_list_lookup_2)) as [K2 K2'].
  destruct (nsort (q1.1) (q1.2)) as [[n2 n3]|e] eqn:E1; cbn [rbind]; [|by apply (nsort_terr _ _ _ K1 K1')].
  destruct (nsort (q2.1) (q2.2)) as [[n4 n5]|e] eqn:E2; cbn [rbind]; [|by apply (nsort_terr _ _ _ K2 K2')].
  destruct (decide (NoDup _)) as [Hnd|]; [|done]. destruct (decide (_ /\ _)) as [[M1 M2]|]; [|done].
  rewrite !getw_ok by done. cbn [rbind]. destruct (decide (_ /\ _)) as (W1 & W2 & W3) || destruct (decide (_ /\ _)) as [(W1 & W2 & W3)|]; [|done].
  pose proof (sorted_pair_keys _ _ _ _ _ _ HI Q1 E1) as [Kn2 Kn3]. pose proof (sorted_pair_keys _ _ _ _ _ _ HI Q2 E2) as [Kn4 Kn5]. cbn [fst snd] in Kn2, Kn3, Kn4, Kn5.
  pose proof (NoDup5 _ _ _ _ _ Hnd) as (_ & _ & _ & _ & Hq1 & _ & _ & _ & _ & Hq2).
  pose proof (orient5 _ _ _ _ _ Hnd E1 E2) as (N1 & N2 & N3 & N4 & N5 & N6 & N7 & N8 & N9 & N10)%NoDup5. cbn [fst snd] in N1, N2, N3, N4, N5, N6, N7, N8, N9, N10.
  pose proof (proj1 (Hself node si) ltac:(left)) as Qs.
  assert (K node) as Kn by (destruct (Hkeys (node, node)); [by eapply elem_of_list_lookup_2|done]).
  destruct (puts_ok [(n2, n3, 0%Z); (n4, n5, 0%Z); (node, n2, 1%Z); (node, n4, 1%Z); (n3, n5, 1%Z)] (c_net st) Hnet) as (n' & -> & Hnet' & HR).
  { intros q. rewrite !elem_of_cons, elem_of_nil. intros Hq. repeat destruct Hq as [-> | Hq]; [..|done]; cbn [fst snd]; done. }
  cbn [rbind]. cbn [foldl fst snd] in HR.
  destruct (nsort n3 n5) as [s0|e] eqn:F0; cbn [rbind]; [|by apply (nsort_terr _ _ _ Kn3 Kn5)].
  destruct (nsort node n2) as [s1|e] eqn:F1; cbn [rbind]; [|by apply (nsort_terr _ _ _ Kn Kn2)].
  destruct (nsort node n4) as [s2|e] eqn:F2; cbn [rbind]; [|by apply (nsort_terr _ _ _ Kn Kn4)].
  pose proof (nsort_sameq _ _ _ F0) as S0. pose proof (nsort_sameq _ _ _ F1) as S1. pose proof (nsort_sameq _ _ _ F2) as S2.
  pose proof (nsort_sameq _ _ _ E1) as T1. rewrite <- surjective_pairing in T1. pose proof (nsort_sameq _ _ _ E2) as T2. rewrite <- surjective_pairing in T2.
  pose proof (single_edge _ _ _ _ _ _ HI Q1 E1 M1 Hq1) as C1. pose proof (single_edge _ _ _ _ _ _ HI Q2 E2 M2 Hq2) as C2.
  assert (si <> e1) as Ne1. { intros ->. rewrite Q1 in Qs. injection Qs as ->. done. }
  assert (si <> e2) as Ne2. { intros ->. rewrite Q2 in Qs. injection Qs as ->. done. }
  pose proof (lookup_lt_Some _ _ _ Qs) as Hsi.
  assert (NoDup [si; e1; e2]) as Hix. { rewrite !NoDup_cons, !not_elem_of_cons. split_and!; try done; try apply not_elem_of_nil; apply NoDup_nil_2. }
  destruct (three_ins (c_slots st) si e1 e2 s0 s1 s2 Hix Hsi H1 H2) as (L0 & L1 & L2 & Lo & Ll).
  set (sl' := <[e2:=s2]> (<[e1:=s1]> (<[si:=s0]> (c_slots st)))) in *.
  destruct (perm_at (node, node) (c_slots st) sl' [si; e1; e2] Hix) as (k & P & P'); [| done | done |].
  { intros i. rewrite !elem_of_cons, elem_of_nil. intros [->|[->|[->|[]]]]; done. }
  cbn [fmap list_fmap app] in P, P'. rewrite Qs, Q1, Q2 in P. rewrite L0, L1, L2 in P'. cbn [default] in P, P'. cbv [from_option id] in P, P'.
  pose proof (CONS_zero _ _ _ _ Hcons N1 W1) as Z1. pose proof (CONS_zero _ _ _ _ Hcons N3 W2) as Z2. pose proof (CONS_zero _ _ _ _ Hcons N9 W3) as Z3.
  rewrite P, !tot_cons in Z1, Z2, Z3. rewrite P in C1, C2.
  rewrite !tot_cons in C1. rewrite (ind_true (sameq (n2, n3)) q1 T1) in C1. rewrite !tot_cons in C2. rewrite (ind_true (sameq (n4, n5)) q2 T2) in C2.
  assert (tot (ind (sameq (n2, n3))) k = 0) as D1 by lia. assert (tot (ind (sameq (n4, n5))) k = 0) as D2 by lia.
  assert (tot (ind (sameq (n2, n3))) [q2] = 0) as D3 by (simpl; lia). clear C1 C2.
  assert (forall p, p ∈ M -> ~ sameq p s0 /\ ~ sameq p s1 /\ ~ sameq p s2) as Hnew.
  { intros p Hp. split_and!; intros Hs.
    - apply (pending_linked _ _ _ n3 n5 p HI Hb Hp N9 W3). by eapply sameq_trans.
    - apply (pending_linked _ _ _ node n2 p HI Hb Hp N1 W1). by eapply sameq_trans.
    - apply (pending_linked _ _ _ node n4 p HI Hb Hp N3 W2). by eapply sameq_trans. }
  assert (s0.1 <> s0.2 /\ s1.1 <> s1.2 /\ s2.1 <> s2.2) as (B0 & B1 & B2).
  { destruct (nsort_ok _ _ _ F0) as [[-> | ->] _], (nsort_ok _ _ _ F1) as [[-> | ->] _], (nsort_ok _ _ _ F2) as [[-> | ->] _]; cbn [fst snd]; auto. }
  split; [|done]. split; cbn [c_net c_slots c_multi c_idx]; try done.
  - by rewrite Ll.
  - assert (CONS (foldl (fun R q => upd R ((q.1).1) ((q.1).2) (q.2)) (RR (c_net st))
      [(n2, n3, 0%Z); (n4, n5, 0%Z); (node, n2, 1%Z); (node, n4, 1%Z); (n3, n5, 1%Z)]) sl') as HC; [|by eapply CONS_ext].
    cbn [foldl fst snd]. apply (CONS_perm _ (s0 :: s2 :: s1 :: k)). { rewrite P'. constructor. constructor. }
    apply CONS_add; [|by apply sameq_sym]. apply CONS_add; [|by apply sameq_sym]. apply CONS_add; [|by apply sameq_sym].
    apply (CONS_rem _ q2); [|done|done]. apply (CONS_rem _ q1); [|done|]. 2: { rewrite tot_cons. cbn [tot] in D3. lia. }
    apply (CONS_remself _ node). by eapply CONS_perm.
  - intros a. rewrite HR, !upd_self by done. apply Hz.
  - apply (TWO_perm _ (s0 :: s1 :: s2 :: k)); [by symmetry|].
    assert (TWO k M) as Hk. { apply (TWO_rem q2), (TWO_rem q1), (TWO_rem (node, node)). by eapply TWO_perm. }
    apply TWO_add; [apply TWO_add; [apply TWO_add; [done|]|]|].
    + rewrite (cnt_sameq _ _ _ S2). lia.
    + rewrite (cnt_sameq _ _ _ S1), cnt_cons_ne; [lia|]. intros Hs. apply (sameq_trans _ _ _ Hs), sameq_iff in S2 as [[_ ?]|[? ?]]; congruence.
    + rewrite (cnt_sameq _ _ _ S0), !cnt_cons_ne; [lia| |]; intros Hs.
      * apply (sameq_trans _ _ _ Hs), sameq_iff in S2 as [[? ?]|[? ?]]; congruence.
      * apply (sameq_trans _ _ _ Hs), sameq_iff in S1 as [[? ?]|[? ?]]; congruence.
  - intros p Hp. destruct (Hidx p Hp) as (l & Hl & HIl). exists l. split; [done|]. destruct (Hnew p Hp) as (A0 & A1 & A2).
    destruct (Hmul p Hp) as (Mp & Cp & Np).
    assert (forall e q r, c_slots st !! e = Some q -> nsort (q.1) (q.2) = Ok r -> r ∉ c_multi st -> e ∉ l) as Hnl.
    { intros e q r Hq Hr Hm Hel. apply HIl in Hel as (q' & Hq' & Hs). rewrite Hq in Hq'. injection Hq' as <-. apply Hm.
      assert (p = r) as <-; [|done]. destruct (nsort_ok _ _ _ Hr) as (_ & Hrr & _). apply nsort_canon; [done..|].
      pose proof (nsort_sameq _ _ _ Hr) as Hsr. rewrite <- surjective_pairing in Hsr. eapply sameq_trans; [exact Hs|]. by apply sameq_sym. }
    unfold sl'. apply IDX_ins; [apply IDX_ins; [apply IDX_ins; [done| |done]| |done]| |done].
    + intros Hel. apply HIl in Hel as (q' & Hq' & Hs). rewrite Qs in Hq'. injection Hq' as <-. destruct p as [pa pb]. apply sameq_iff in Hs. simpl in Np. destruct Hs as [[? ?]|[? ?]]; congruence.
    + by eapply Hnl.
    + by eapply Hnl.
  - intros x. rewrite <- Hdeg, P, P', !tot_cons.
    rewrite (ends_sameq x _ _ S0), (ends_sameq x _ _ S1), (ends_sameq x _ _ S2), <- (ends_sameq x _ _ T1), <- (ends_sameq x _ _ T2). unfold ends. cbn [fst snd]. lia.
  - intros q. rewrite P', !elem_of_cons. intros [->|[->|[->|Hq]]].
    + by destruct (nsort_ok _ _ _ F0) as [[-> | ->] _].
    + by destruct (nsort_ok _ _ _ F1) as [[-> | ->] _].
    + by destruct (nsort_ok _ _ _ F2) as [[-> | ->] _].
    + apply Hkeys. rewrite P, !elem_of_cons. auto.
  - by apply NoDup_cons in HndS as [_ ?].
  - intros x s. apply NoDup_cons in HndS as [Hnin _]. assert ((x, s) ∈ S <-> (x, s) ∈ (node, si) :: S /\ (x, s) <> (node, si)) as ->.
    { rewrite elem_of_cons. split; [|by intros [[?|?] ?]]. intros Hx. split; [by right|]. intros E. by rewrite E in Hx. }
    rewrite Hself. destruct (decide (s ∈ [si; e1; e2])) as [Hs|Hs].
    + rewrite !elem_of_cons, elem_of_nil in Hs. destruct Hs as [->|[->|[->|[]]]].
      * rewrite L0, Qs. split; [intros [[= ->] ?]; done|]. intros [= ->]. done.
      * rewrite L1, Q1. split; [intros [[= ->] ?]; done|]. intros [= ->]. done.
      * rewrite L2, Q2. split; [intros [[= ->] ?]; done|]. intros [= ->]. done.
    + rewrite Lo by done. split; [by intros [? _]|]. intros Hx. split; [done|]. intros [= -> ->]. apply Hs. left.
Qed.

Definition cerr (e : exn) : Prop := e = OutOfFuel \/ terr e \/ e = ValueError /\ L < 2.
Lemma draw_spec st rnd : length (c_slots st) = L ->
  match draw st rnd with
  | Ok (e1, e2, _) => e1 <> e2 /\ e1 < length (c_slots st) /\ e2 < length (c_slots st)
  | Err e => cerr e
  end.
Proof.
  intros HL. unfold draw. destruct (decide (length (c_slots st) < 2)) as [H|H]; [right; right; split; [done|lia]|].
  destruct rnd as [|[e1 e2] rnd]; [by left|]. destruct (decide _) as [Hd|]; [done|by left].
Qed.
Lemma self_loop_spec M S node si fuel : forall st rnd, Inv M ((node, si) :: S) st -> big M st ->
  match self_loop fuel st node si rnd with
  | Ok (st', _) => Inv M S st' /\ c_multi st' = c_multi st /\ c_idx st' = c_idx st
  | Err e => cerr e
  end.
Proof.
  induction fuel as [|f IH]; intros st rnd H Hb; cbn [self_loop]; [by left|].
  pose proof (draw_spec st rnd (v_len _ _ _ H)) as Hd. destruct (draw st rnd) as [[[e1 e2] rnd']|e]; cbn [rbind]; [|done].
  destruct Hd as (He & H1 & H2). pose proof (self_try_spec M S st node si e1 e2 H Hb He H1 H2) as Ht.
  destruct (self_try st node si e1 e2) as [[st'|]|e]; cbn [rbind]; [done| |right; by left]. by apply IH.
Qed.
Lemma self_phase_spec M : forall S st rnd, Inv M S st -> big M st ->
  match rfold (fun s t => self_loop (Datatypes.S (length (s.2))) (s.1) (t.1) (t.2) (s.2)) (st, rnd) S with
  | Ok (st', _) => Inv M [] st' /\ c_multi st' = c_multi st /\ c_idx st' = c_idx st
  | Err e => cerr e
  end.
Proof.
  induction S as [|[x si] S IH]; intros st rnd H Hb; cbn [rfold fst snd]; [done|].
  pose proof (self_loop_spec M S x si (Datatypes.S (length rnd)) st rnd H Hb) as Hl.
  destruct (self_loop _ st x si rnd) as [[st' rnd']|e]; [|done]. destruct Hl as (H' & Em & Ei).
  assert (big M st') as Hb'. { intros p Hp. rewrite Ei. by apply Hb. }
  specialize (IH st' rnd' H' Hb'). destruct (rfold _ _ S) as [[st2 r2]|e]; [|done]. destruct IH as (H2 & Em2 & Ei2). split; [done|]. split; congruence.
Qed.

Lemma four_ins {A} (sl : list A) i j k m a b c d : NoDup [i; j; k; m] -> i < length sl -> j < length sl -> k < length sl -> m < length sl ->
  let sl' := <[m := d]> (<[k := c]> (<[j := b]> (<[i := a]> sl))) in
  sl' !! i = Some a /\ sl' !! j = Some b /\ sl' !! k = Some c /\ sl' !! m = Some d /\ (forall s, s ∉ [i; j; k; m] -> sl' !! s = sl !! s) /\ length sl' = length sl.
Proof.
  rewrite !NoDup_cons, !not_elem_of_cons. intros Hn Hi Hj Hk Hm sl'. destruct_and!. unfold sl'. split_and!.
  - rewrite !list_lookup_insert_ne by done. by apply list_lookup_insert.
  - rewrite !list_lookup_insert_ne by done. apply list_lookup_insert. by rewrite insert_length.
  - rewrite !list_lookup_insert_ne by done. apply list_lookup_insert. by rewrite !insert_length.
  - apply list_lookup_insert. by rewrite !insert_length.
  - intros s. rewrite !not_elem_of_cons. intros; destruct_and!. by rewrite !list_lookup_insert_ne.
  - by rewrite !insert_length.
Qed.
Lemma IDX_same l sl sl' (ix : list nat) P : IDX l sl P -> (forall s, s ∉ ix -> sl' !! s = sl !! s) -> (forall s, s ∈ ix -> s ∉ l) ->
  (forall s q, s ∈ ix -> sl' !! s = Some q -> ~ P q) -> IDX l sl' P.
Proof.
  intros [Hnd Hl] Ho Hi Hn. split; [done|]. intros s. destruct (decide (s ∈ ix)) as [Hs|Hs].
  - split; [intros H; by destruct (Hi s Hs)|]. intros (q & Hq & Hp). by destruct (Hn s q Hs Hq).
  - by rewrite Hl, Ho.
Qed.
Lemma multi_try_spec M st n1 n2 e1 e2 : Inv ((n1, n2) :: M) [] st -> big ((n1, n2) :: M) st -> two_left (n1, n2) st ->
  e1 <> e2 -> e1 < length (c_slots st) -> e2 < length (c_slots st) ->
  match multi_try st n1 n2 e1 e2 with
  | Ok (Some st') => Inv ((n1, n2) :: M) [] st' /\ c_multi st' = c_multi st /\
      (exists l l', dget (c_idx st) (n1, n2) = Some l /\ dget (c_idx st') (n1, n2) = Some l' /\ length l = length l' + 2) /\
      (forall p, p <> (n1, n2) -> dget (c_idx st') p = dget (c_idx st) p)
  | Ok None => True
  | Err e => terr e
  end.
Proof.
  intros H Hb Htl He H1 H2. pose proof H as HI. destruct H as [Hlen Hnet Hcons Hz Htwo Hmul HndM Hidx Hdeg Hkeys HndS Hself].
  unfold multi_try. destruct (slot_ok st e1 H1) as (q1 & -> & Q1). destruct (slot_ok st e2 H2) as (q2 & -> & Q2). cbn [rbind].
  pose proof (Hkeys q1 ltac:(by eapply elem_of_list_lookup_2)) as [K1 K1']. pose proof (Hkeys q2 ltac:(by eapply elem_of_list_lookup_2)) as [K2 K2'].
  destruct (nsort (q1.1) (q1.2)) as [[n3 n4]|e] eqn:E1; cbn [rbind]; [|by apply (nsort_terr _ _ _ K1 K1')].
  destruct (nsort (q2.1) (q2.2)) as [[n5 n6]|e] eqn:E2; cbn [rbind]; [|by apply (nsort_terr _ _ _ K2 K2')].
  destruct (decide (NoDup _)) as [Hnd|]; [|done]. destruct (decide (_ /\ _)) as [[M1 M2]|]; [|done].
  rewrite !getw_ok by done. cbn [rbind]. destruct (decide (_ /\ _)) as [(W1 & W2 & W3 & W4)|]; [|done].
  pose proof (sorted_pair_keys _ _ _ _ _ _ HI Q1 E1) as [Kn3 Kn4]. pose proof (sorted_pair_keys _ _ _ _ _ _ HI Q2 E2) as [Kn5 Kn6]. cbn [fst snd] in Kn3, Kn4, Kn5, Kn6.
  apply NoDup6 in Hnd as (N12 & Hnd1 & Hnd2).
  pose proof (NoDup5 _ _ _ _ _ Hnd1) as (_ & _ & _ & _ & Hq1 & _ & _ & _ & _ & Hq2).
  pose proof (orient5 _ _ _ _ _ Hnd1 E1 E2) as (N13 & N14 & N15 & N16 & N34 & N35 & N36 & N45 & N46 & N56)%NoDup5.
  pose proof (orient5 _ _ _ _ _ Hnd2 E1 E2) as (N23 & N24 & N25 & N26 & _)%NoDup5. cbn [fst snd] in *.
  destruct (Hidx (n1, n2) ltac:(left)) as (l & Hl & HIl). rewrite Hl. destruct Htl as (l0 & Hl0 & Hl2). assert (l0 = l) as -> by congruence. clear Hl0.
  pose proof (IDX_len (sameq (n1, n2)) _ _ HIl) as Hcl.
  destruct (reverse l) as [|x [|y r]] eqn:Er.
  { apply (f_equal length) in Er. rewrite reverse_length in Er. simpl in Er. lia. }
  { apply (f_equal length) in Er. rewrite reverse_length in Er. simpl in Er. lia. }
  assert (l = reverse r ++ [y; x]) as El. { rewrite <- (reverse_involutive l), Er, !reverse_cons, <- app_assoc. done. } clear Er.
  assert (x ∈ l) as Hx by (rewrite El; apply elem_of_app; right; right; left). assert (y ∈ l) as Hy by (rewrite El; apply elem_of_app; right; left).
  destruct HIl as [Hndl HIl]. assert (NoDup (reverse r) /\ x <> y /\ forall s, s ∈ reverse r <-> s ∈ l /\ s <> x /\ s <> y) as (Hndr & Hxy & Hr).
  { rewrite El in Hndl. apply NoDup_app in Hndl as (Hr1 & Hr2 & Hr3). split; [done|]. apply NoDup_cons in Hr3 as [Hr3 _]. rewrite elem_of_list_singleton in Hr3.
    split; [congruence|]. intros s. rewrite El, elem_of_app. rewrite !elem_of_cons, elem_of_nil. split; [|by intros [[?|[?|[?|[]]]] [? ?]]].
    intros Hs. specialize (Hr2 s Hs). rewrite !elem_of_cons in Hr2. tauto. }
  assert (exists si1 si2, si1 = Nat.min x y /\ si2 = Nat.max x y /\ si1 <> si2 /\ si1 ∈ l /\ si2 ∈ l /\ forall s, (s <> x /\ s <> y) <-> (s <> si1 /\ s <> si2)) as (si1 & si2 & Em1 & Em2 & Nss & Hs1 & Hs2 & Hss).
  { exists (Nat.min x y), (Nat.max x y). split_and!; try done; try lia; destruct (Nat.min_dec x y) as [Hm|Hm], (Nat.max_dec x y) as [Hm'|Hm']; rewrite ?Hm, ?Hm'; done. }
  rewrite <- Em1, <- Em2. destruct (proj1 (HIl si1) Hs1) as (r1 & R1 & P1). destruct (proj1 (HIl si2) Hs2) as (r2 & R2 & P2).
  assert (K n1 /\ K n2) as [Kn1 Kn2]. { destruct (Hkeys r1 ltac:(by eapply elem_of_list_lookup_2)). destruct P1 as [<-|P1]; [done|]. by injection P1 as -> ->. }
  pose proof (nsort_sameq _ _ _ E1) as T1. rewrite <- surjective_pairing in T1. pose proof (nsort_sameq _ _ _ E2) as T2. rewrite <- surjective_pairing in T2.
  pose proof (single_edge _ _ _ _ _ _ HI Q1 E1 M1 Hq1) as C1. pose proof (single_edge _ _ _ _ _ _ HI Q2 E2 M2 Hq2) as C2.
  assert (forall a b c d, a <> c -> a <> d -> ~ sameq (a, b) (c, d)) as Nsq. { intros a b c d ? ?. rewrite sameq_iff. tauto. }
  assert (exists n, (if decide (length l = 2) then setw (c_net st) n1 n2 0 else Ok (c_net st)) = Ok n /\ NET n /\
     (forall x y, RR n x y = (if decide (length l = 2) then upd (RR (c_net st)) n1 n2 0 else RR (c_net st)) x y)) as (n & -> & Hn & HRn).
  { destruct (decide (length l = 2)); [|by exists (c_net st)]. destruct (setw_ok (c_net st) n1 n2 0 Hnet N12 Kn1 Kn2) as (n & -> & ? & ?). by exists n. }
  cbn [rbind]. rewrite !getw_ok by done. cbn [rbind].
  assert (RR n n3 n4 = 1%Z /\ RR n n5 n6 = 1%Z) as Hv.
  { rewrite !HRn. assert (RR (c_net st) n3 n4 = 1%Z) as V1 by (rewrite (Hcons n3 n4 N34), decide_True; [done|lia]).
    assert (RR (c_net st) n5 n6 = 1%Z) as V2 by (rewrite (Hcons n5 n6 N56), decide_True; [done|lia]).
    destruct (decide (length l = 2)); [|done]. unfold upd. rewrite !decide_False by by apply Nsq. done. }
  rewrite decide_True by done. clear Hv.
  destruct (puts_ok [(n3, n4, 0%Z); (n5, n6, 0%Z); (n1, n3, 1%Z); (n2, n4, 1%Z); (n1, n5, 1%Z); (n2, n6, 1%Z)] n Hn) as (n' & -> & Hnet' & HR).
  { intros q. rewrite !elem_of_cons, elem_of_nil. intros Hq. repeat destruct Hq as [-> | Hq]; [..|done]; cbn [fst snd]; done. }
  cbn [rbind]. cbn [foldl fst snd] in HR.
  destruct (nsort n1 n3) as [s1|e] eqn:F1; cbn [rbind]; [|by apply (nsort_terr _ _ _ Kn1 Kn3)].
  destruct (nsort n2 n4) as [s2|e] eqn:F2; cbn [rbind]; [|by apply (nsort_terr _ _ _ Kn2 Kn4)].
  destruct (nsort n1 n5) as [s3|e] eqn:F3; cbn [rbind]; [|by apply (nsort_terr _ _ _ Kn1 Kn5)].
  destruct (nsort n2 n6) as [s4|e] eqn:F4; cbn [rbind]; [|by apply (nsort_terr _ _ _ Kn2 Kn6)].
  pose proof (nsort_sameq _ _ _ F1) as S1. pose proof (nsort_sameq _ _ _ F2) as S2. pose proof (nsort_sameq _ _ _ F3) as S3. pose proof (nsort_sameq _ _ _ F4) as S4.
  assert (forall p l, p ∈ (n1, n2) :: M -> IDX l (c_slots st) (sameq p) -> e1 ∉ l /\ e2 ∉ l) as Hnl.
  { intros p l' Hp HI'. destruct (Hmul p Hp) as (Mp & Cp & Np).
    assert (forall e q r, c_slots st !! e = Some q -> nsort (q.1) (q.2) = Ok r -> r ∉ c_multi st -> e ∉ l') as Hnl.
    { intros e q r0 Hq Hr' Hm Hel. apply HI' in Hel as (q' & Hq' & Hs). rewrite Hq in Hq'. injection Hq' as <-. apply Hm.
      assert (p = r0) as <-; [|done]. destruct (nsort_ok _ _ _ Hr') as (_ & Hrr & _). apply nsort_canon; [done..|].
      pose proof (nsort_sameq _ _ _ Hr') as Hsr. rewrite <- surjective_pairing in Hsr. eapply sameq_trans; [exact Hs|]. by apply sameq_sym. }
    split; by eapply Hnl. }
  destruct (Hnl (n1, n2) l ltac:(left) (conj Hndl HIl)) as [Nl1 Nl2].
  pose proof (lookup_lt_Some _ _ _ R1) as Hsi1. pose proof (lookup_lt_Some _ _ _ R2) as Hsi2.
  assert (NoDup [si1; si2; e1; e2]) as Hix.
  { rewrite !NoDup_cons, !not_elem_of_cons. split_and!; try done; try apply not_elem_of_nil; try apply NoDup_nil_2; intros ->; done. }
  destruct (four_ins (c_slots st) si1 si2 e1 e2 s1 s2 s3 s4 Hix Hsi1 Hsi2 H1 H2) as (L1 & L2 & L3 & L4 & Lo & Ll).
  set (sl' := <[e2:=s4]> (<[e1:=s3]> (<[si2:=s2]> (<[si1:=s1]> (c_slots st))))) in *.
  destruct (perm_at (n1, n1) (c_slots st) sl' [si1; si2; e1; e2] Hix) as (k & P & P'); [| done | done |].
  { intros i. rewrite !elem_of_cons, elem_of_nil. intros [->|[->|[->|[->|[]]]]]; done. }
  cbn [fmap list_fmap app] in P, P'. rewrite R1, R2, Q1, Q2 in P. rewrite L1, L2, L3, L4 in P'. cbv [default from_option id] in P, P'.
  pose proof (CONS_zero _ _ _ _ Hcons N13 W1) as Z1. pose proof (CONS_zero _ _ _ _ Hcons N24 W2) as Z2.
  pose proof (CONS_zero _ _ _ _ Hcons N15 W3) as Z3. pose proof (CONS_zero _ _ _ _ Hcons N26 W4) as Z4.
  rewrite P, !tot_cons in Z1, Z2, Z3, Z4. rewrite P in C1, C2.
  rewrite !tot_cons in C1. rewrite (ind_true (sameq (n3, n4)) q1 T1) in C1. rewrite !tot_cons in C2. rewrite (ind_true (sameq (n5, n6)) q2 T2) in C2.
  assert (tot (ind (sameq (n3, n4))) (q2 :: k) = 0) as D1 by (rewrite tot_cons; lia). assert (tot (ind (sameq (n5, n6))) k = 0) as D2 by lia. clear C1 C2.
  rewrite P, (cnt_cons_eq _ _ _ P1), (cnt_cons_eq _ _ _ P2) in Hcl.
  assert (forall p s q, p ∈ (n1, n2) :: M -> s ∈ [si1; si2; e1; e2] -> sl' !! s = Some q -> ~ sameq p q) as Hnew.
  { intros p s q Hp Hs Hq Hsq. rewrite !elem_of_cons, elem_of_nil in Hs.
    destruct Hs as [->|[->|[->|[->|[]]]]]; [rewrite L1 in Hq|rewrite L2 in Hq|rewrite L3 in Hq|rewrite L4 in Hq]; injection Hq as <-.
    - apply (pending_linked _ _ _ n1 n3 p HI Hb Hp N13 W1). by eapply sameq_trans.
    - apply (pending_linked _ _ _ n2 n4 p HI Hb Hp N24 W2). by eapply sameq_trans.
    - apply (pending_linked _ _ _ n1 n5 p HI Hb Hp N15 W3). by eapply sameq_trans.
    - apply (pending_linked _ _ _ n2 n6 p HI Hb Hp N26 W4). by eapply sameq_trans. }
  assert (forall a b p, nsort a b = Ok p -> a <> b -> p.1 <> p.2) as Hns. { intros a b p [[-> | ->] _]%nsort_ok; cbn [fst snd]; auto. }
  split; [|split; [done|split; [exists l, (reverse r); split; [done|split; [cbn [c_idx]; by rewrite dget_dset_eq|]]|]]]; cycle 1.
  { rewrite El, app_length. done. }
  { intros p Hp. cbn [c_idx]. by rewrite dget_dset_ne. }
  split; cbn [c_net c_slots c_multi c_idx]; try done.
  - by rewrite Ll.
  - assert (CONS (RR n) (q1 :: q2 :: k)) as Hc0.
    { apply (CONS_ext (if decide (length l = 2) then upd (RR (c_net st)) n1 n2 0 else RR (c_net st))); [|done].
      assert (CONS (RR (c_net st)) (r2 :: q1 :: q2 :: k)) as Hc1.
      { apply (CONS_remdup _ r1); [by eapply CONS_perm|]. rewrite <- (cnt_sameq _ _ _ P1), (cnt_cons_eq _ _ _ P2). lia. }
      destruct (decide (length l = 2)) as [E|E].
      - apply (CONS_rem _ r2); [done|done|]. lia.
      - apply (CONS_remdup _ r2); [done|]. rewrite <- (cnt_sameq _ _ _ P2). lia. }
    assert (CONS (foldl (fun R q => upd R ((q.1).1) ((q.1).2) (q.2)) (RR n)
      [(n3, n4, 0%Z); (n5, n6, 0%Z); (n1, n3, 1%Z); (n2, n4, 1%Z); (n1, n5, 1%Z); (n2, n6, 1%Z)]) sl') as HC; [|by eapply CONS_ext].
    cbn [foldl fst snd]. apply (CONS_perm _ (s4 :: s3 :: s2 :: s1 :: k)). { rewrite P'. change (s1 :: s2 :: s3 :: s4 :: k) with ([s1; s2; s3; s4] ++ k). rewrite <- (reverse_Permutation [s1; s2; s3; s4]). done. }
    apply CONS_add; [|by apply sameq_sym]. apply CONS_add; [|by apply sameq_sym]. apply CONS_add; [|by apply sameq_sym]. apply CONS_add; [|by apply sameq_sym].
    apply (CONS_rem _ q2); [|done|done]. apply (CONS_rem _ q1); [|done|done]. done.
  - intros a. rewrite HR, !upd_self by done. rewrite HRn. destruct (decide (length l = 2)); [rewrite upd_self by done|]; apply Hz.
  - apply (TWO_perm _ (s1 :: s2 :: s3 :: s4 :: k)); [by symmetry|].
    assert (TWO k ((n1, n2) :: M)) as Hk. { apply (TWO_rem q2), (TWO_rem q1), (TWO_rem r2), (TWO_rem r1). by eapply TWO_perm. }
    assert (forall a b c d p q, nsort a b = Ok p -> nsort c d = Ok q -> a <> c -> a <> d \/ b <> c -> b <> d \/ a <> c -> (a <> c \/ b <> d) -> (a <> d \/ b <> c) -> ~ sameq p q) as Hnn.
    { intros a b c d p q Hp%nsort_sameq Hq%nsort_sameq Hac _ _ _ Had Hs.
      assert (sameq (a, b) (c, d)) as Hs'. { eapply sameq_trans; [apply sameq_sym, Hp|]. by eapply sameq_trans. }
      apply sameq_iff in Hs' as [[? ?]|[? ?]]; tauto. }
    apply TWO_add; [apply TWO_add; [apply TWO_add; [apply TWO_add; [done|]|]|]|].
    + rewrite (cnt_sameq _ _ _ S4). lia.
    + rewrite (cnt_sameq _ _ _ S3), cnt_cons_ne; [lia|]. intros Hs. apply (sameq_trans _ _ _ Hs), sameq_iff in S4 as [[? ?]|[? ?]]; congruence.
    + rewrite (cnt_sameq _ _ _ S2), !cnt_cons_ne; [lia| |]; intros Hs.
      * apply (sameq_trans _ _ _ Hs), sameq_iff in S4 as [[? ?]|[? ?]]; congruence.
      * apply (sameq_trans _ _ _ Hs), sameq_iff in S3 as [[? ?]|[? ?]]; congruence.
    + rewrite (cnt_sameq _ _ _ S1), !cnt_cons_ne; [lia| | |]; intros Hs.
      * apply (sameq_trans _ _ _ Hs), sameq_iff in S4 as [[? ?]|[? ?]]; congruence.
      * apply (sameq_trans _ _ _ Hs), sameq_iff in S3 as [[? ?]|[? ?]]; congruence.
      * apply (sameq_trans _ _ _ Hs), sameq_iff in S2 as [[? ?]|[? ?]]; congruence.
  - intros p Hp. destruct (decide (p = (n1, n2))) as [->|Hne].
    + exists (reverse r). rewrite dget_dset_eq. split; [done|]. split; [done|]. intros s. destruct (decide (s ∈ [si1; si2; e1; e2])) as [Hs|Hs].
      * split; [|intros (q & Hq & Hsq); by destruct (Hnew _ _ _ Hp Hs Hq)]. intros [Hsl Hn']%Hr. exfalso. rewrite !elem_of_cons, elem_of_nil in Hs.
        apply Hss in Hn' as [? ?]. destruct Hs as [->|[->|[->|[->|[]]]]]; done.
      * rewrite Lo, <- HIl, Hr by done. split; [by intros [? _]|]. intros Hsl. split; [done|]. apply Hss. rewrite !not_elem_of_cons in Hs. tauto.
    + rewrite dget_dset_ne by done. destruct (Hidx p Hp) as (l' & Hl' & HIl'). exists l'. split; [done|].
      apply (IDX_same _ (c_slots st) _ [si1; si2; e1; e2]); [done|done| |by intros s q; apply Hnew].
      destruct (Hnl p l' Hp HIl') as [Nl1' Nl2']. assert (forall s q, c_slots st !! s = Some q -> sameq (n1, n2) q -> s ∉ l') as Hno.
      { intros s q Hq Hsq Hs. apply HIl' in Hs as (q' & Hq' & Hs). rewrite Hq in Hq'. injection Hq' as <-. apply Hne.
        destruct (Hmul p Hp) as (_ & Cp & _). destruct (Hmul (n1, n2) ltac:(left)) as (_ & Cp' & _). apply nsort_canon; [done..|].
        eapply sameq_trans; [exact Hs|]. by apply sameq_sym. }
      intros s. rewrite !elem_of_cons, elem_of_nil. intros [->|[->|[->|[->|[]]]]]; [by eapply Hno|by eapply Hno|done|done].
  - intros x'. rewrite <- Hdeg, P, P', !tot_cons.
    rewrite (ends_sameq x' _ _ S1), (ends_sameq x' _ _ S2), (ends_sameq x' _ _ S3), (ends_sameq x' _ _ S4), <- (ends_sameq x' _ _ T1), <- (ends_sameq x' _ _ T2), <- (ends_sameq x' _ _ P1), <- (ends_sameq x' _ _ P2).
    unfold ends. cbn [fst snd]. lia.
  - intros q. rewrite P', !elem_of_cons. intros [->|[->|[->|[->|Hq]]]].
    + by destruct (nsort_ok _ _ _ F1) as [[-> | ->] _].
    + by destruct (nsort_ok _ _ _ F2) as [[-> | ->] _].
    + by destruct (nsort_ok _ _ _ F3) as [[-> | ->] _].
    + by destruct (nsort_ok _ _ _ F4) as [[-> | ->] _].
    + apply Hkeys. rewrite P, !elem_of_cons. auto.
  - intros x' s. rewrite elem_of_nil. split; [done|]. intros Hs'. destruct (decide (s ∈ [si1; si2; e1; e2])) as [Hs|Hs].
    + pose proof (Hns _ _ _ F1 N13). pose proof (Hns _ _ _ F2 N24). pose proof (Hns _ _ _ F3 N15). pose proof (Hns _ _ _ F4 N26).
      rewrite !elem_of_cons, elem_of_nil in Hs. destruct Hs as [->|[->|[->|[->|[]]]]];
        [rewrite L1 in Hs'|rewrite L2 in Hs'|rewrite L3 in Hs'|rewrite L4 in Hs']; injection Hs' as ->; done.
    + rewrite Lo in Hs' by done. apply Hself in Hs'. by apply elem_of_nil in Hs'.
Qed.
Lemma multi_loop_spec M n1 n2 fuel : forall st rnd, Inv ((n1, n2) :: M) [] st -> big ((n1, n2) :: M) st -> two_left (n1, n2) st ->
  match multi_loop fuel st n1 n2 rnd with
  | Ok (st', _) => Inv ((n1, n2) :: M) [] st' /\ c_multi st' = c_multi st /\
      (exists l l', dget (c_idx st) (n1, n2) = Some l /\ dget (c_idx st') (n1, n2) = Some l' /\ length l = length l' + 2) /\
      (forall p, p <> (n1, n2) -> dget (c_idx st') p = dget (c_idx st) p)
  | Err e => cerr e
  end.
Proof.
  induction fuel as [|f IH]; intros st rnd H Hb Htl; cbn [multi_loop]; [by left|].
  pose proof (draw_spec st rnd (v_len _ _ _ H)) as Hd. destruct (draw st rnd) as [[[e1 e2] rnd']|e]; cbn [rbind]; [|done].
  destruct Hd as (He & H1 & H2). pose proof (multi_try_spec M st n1 n2 e1 e2 H Hb Htl He H1 H2) as Ht.
  destruct (multi_try st n1 n2 e1 e2) as [[st'|]|e]; cbn [rbind]; [done| |right; by left]. by apply IH.
Qed.
Lemma multi_edge_loop M n1 n2 : forall k st rnd l, Inv ((n1, n2) :: M) [] st -> big M st -> dget (c_idx st) (n1, n2) = Some l -> length l = 2 * k \/ length l = 2 * k + 1 ->
  match rfold (fun s (_ : unit) => multi_loop (S (length (s.2))) (s.1) n1 n2 (s.2)) (st, rnd) (replicate k tt) with
  | Ok (st', _) => Inv M [] st' /\ c_multi st' = c_multi st /\ big M st'
  | Err e => cerr e
  end.
Proof.
  induction k as [|k IH]; intros st rnd l H Hb Hl Hlen; cbn [replicate rfold].
  - split; [|done]. pose proof H as [H1 H2 H3 H4 H5 H6 H7 H8 H9 H10 H11 H12]. split; try done.
    + intros a b Hne Hc. destruct (H5 a b Hne Hc) as (p & [->|Hp]%elem_of_cons & Hs); [|by exists p]. exfalso.
      destruct (H8 (n1, n2) ltac:(left)) as (l' & Hl' & HI). assert (l' = l) as -> by congruence.
      pose proof (IDX_len (sameq (n1, n2)) _ _ HI) as Hcl. rewrite (cnt_sameq _ _ _ Hs) in Hcl. lia.
    + intros p Hp. apply H6. by right.
    + by apply NoDup_cons in H7 as [_ ?].
    + intros p Hp. apply H8. by right.
  - cbn [fst snd]. assert (big ((n1, n2) :: M) st) as Hb'. { intros p [->|Hp]%elem_of_cons; [|by apply Hb]. exists l. split; [done|lia]. }
    pose proof (multi_loop_spec M n1 n2 (S (length rnd)) st rnd H Hb' ltac:(exists l; split; [done|lia])) as Hm. destruct (multi_loop _ st n1 n2 rnd) as [[st' rnd']|e]; [|done].
    destruct Hm as (H' & Em & (l1 & l2 & E1 & E2 & El) & Ho). assert (l1 = l) as -> by congruence.
    assert (big M st') as Hb2.
    { intros p Hp. rewrite Ho; [by apply Hb|]. intros ->. apply v_nd, NoDup_cons in H as [? _]. done. }
    specialize (IH st' rnd' l2 H' Hb2 E2 ltac:(lia)). destruct (rfold _ _ (replicate k tt)) as [[st2 r2]|e]; [|done]. destruct IH as (? & ? & ?). split; [done|]. split; [congruence|done].
Qed.
Lemma multi_phase_spec : forall M st rnd, Inv M [] st -> big M st ->
  match rfold multi_edge (st, rnd) M with Ok (st', _) => Inv [] [] st' | Err e => cerr e end.
Proof.
  induction M as [|[n1 n2] M IH]; intros st rnd H Hb; cbn [rfold]; [done|]. unfold multi_edge at 1. cbn [fst snd].
  destruct (Hb (n1, n2) ltac:(left)) as (l & Hl & _). rewrite Hl.
  assert (big M st) as Hb1 by (intros p Hp; apply Hb; by right).
  pose proof (Nat.div_mod_eq (length l) 2) as Hdm. pose proof (Nat.mod_upper_bound (length l) 2 ltac:(lia)).
  pose proof (multi_edge_loop M n1 n2 (length l / 2) st rnd l H Hb1 Hl ltac:(lia)) as Hm.
  destruct (rfold _ (st, rnd) (replicate _ tt)) as [[st' rnd']|e]; [|done]. destruct Hm as (? & _ & ?). by apply IH.
Qed.
Lemma Inv_perm M M' S S' st : M ≡ₚ M' -> S ≡ₚ S' -> Inv M S st -> Inv M' S' st.
Proof.
  intros HM HS [H1 H2 H3 H4 H5 H6 H7 H8 H9 H10 H11 H12]. split; try done.
  - intros a b Hne Hc. destruct (H5 a b Hne Hc) as (p & Hp & ?). exists p. by rewrite <- HM.
  - intros p Hp. apply H6. by rewrite HM.
  - by rewrite <- HM.
  - intros p Hp. apply H8. by rewrite HM.
  - by rewrite <- HS.
  - intros x s. by rewrite <- HS, H12.
Qed.

(** ** The first pass *)
Record First (pre : list (name * name)) (st : cst) : Prop := {
  f_net : NET (c_net st);
  f_cons : CONS (RR (c_net st)) pre;
  f_self0 : forall a, RR (c_net st) a a = 0%Z;
  f_two : TWO pre (c_multi st);
  f_nd : NoDup (c_multi st);
  f_multi : forall p, p ∈ c_multi st -> nsort (p.1) (p.2) = Ok p /\ p.1 <> p.2 /\ 2 <= cnt p pre;
  f_idx : forall p, nsort (p.1) (p.2) = Ok p -> IDX (default [] (dget (c_idx st) p)) pre (sameq p);
  f_snd : NoDup (dkeys (c_self st));
  f_selfs : forall x, IDX (default [] (dget (c_self st) x)) pre (eq (x, x))
}.
Lemma IDX_snoc_yes l sl (P : name * name -> Prop) q : IDX l sl P -> P q -> IDX (l ++ [length sl]) (sl ++ [q]) P.
Proof.
  intros [Hnd Hl] Hq. assert (length sl ∉ l) as Hn. { intros (q' & Hq' & _)%Hl. apply lookup_lt_Some in Hq'. lia. }
  split.
  - apply NoDup_app. split; [done|]. split; [|apply NoDup_singleton]. by intros s Hs ->%elem_of_list_singleton.
  - intros s. rewrite elem_of_app, elem_of_list_singleton, Hl. split.
    + intros [(q' & Hq' & ?)| ->]; [exists q'; split; [|done]|exists q; split; [by apply list_lookup_middle|done]]. rewrite lookup_app_l; [done|]. by eapply lookup_lt_Some.
    + intros (q' & [Hq'|[? Hq']]%lookup_app_Some & ?); [eauto|]. apply list_lookup_singleton_Some in Hq' as [? _]. right. lia.
Qed.
Lemma IDX_snoc_no l sl (P : name * name -> Prop) q : IDX l sl P -> ~ P q -> IDX l (sl ++ [q]) P.
Proof.
  intros [Hnd Hl] Hq. split; [done|]. intros s. rewrite Hl. split.
  - intros (q' & Hq' & ?). exists q'. split; [|done]. rewrite lookup_app_l; [done|]. by eapply lookup_lt_Some.
  - intros (q' & [Hq'|[? Hq']]%lookup_app_Some & ?); [eauto|]. apply list_lookup_singleton_Some in Hq' as [_ <-]. done.
Qed.
Lemma conf_edge_spec pre st a b : First pre st -> K a -> K b ->
  match conf_edge st (length pre, (a, b)) with
  | Ok st' => First (pre ++ [(a, b)]) st' /\ c_slots st' = c_slots st
  | Err e => terr e
  end.
Proof.
  intros H Ka Kb. destruct H as [Hnet Hcons Hz Htwo HndM Hmul Hidx HndS Hself]. unfold conf_edge.
  destruct (nsort a b) as [[x y]|e] eqn:E; cbn [rbind]; [|by apply (nsort_terr _ _ _ Ka Kb)].
  pose proof (nsort_ok _ _ _ E) as (Eor & Exy & _). cbn [fst snd] in Exy. pose proof (nsort_sameq _ _ _ E) as Hsx.
  rewrite getw_ok by done. cbn [rbind].
  assert (K x /\ K y) as [Kx Ky] by by destruct Eor as [[= -> ->]|[= -> ->]].
  assert (forall p sl q, cnt p (sl ++ [q]) = cnt p sl + ind (sameq p) q) as Hcs. { intros p sl q. rewrite tot_app. simpl. lia. }
  assert (forall p, nsort (p.1) (p.2) = Ok p -> IDX (default [] (dget (dset (c_idx st) (x, y) (default [] (dget (c_idx st) (x, y)) ++ [length pre])) p)) (pre ++ [(a, b)]) (sameq p)) as Hidx'.
  { intros p Hp. destruct (decide (p = (x, y))) as [->|Hne].
    - rewrite dget_dset_eq. simpl. apply IDX_snoc_yes; [by apply Hidx|done].
    - rewrite dget_dset_ne by done. apply IDX_snoc_no; [by apply Hidx|]. intros Hs. apply Hne. apply nsort_canon; [done..|]. eapply sameq_trans; [exact Hs|by apply sameq_sym]. }
  set (M' := if decide (RR (c_net st) x y <> 0%Z) then sadd (x, y) (c_multi st) else c_multi st).
  assert (NoDup M' /\ (forall p, p ∈ M' -> nsort (p.1) (p.2) = Ok p /\ p.1 <> p.2 /\ 2 <= cnt p (pre ++ [(a, b)])) /\ TWO (pre ++ [(a, b)]) M') as (HM1 & HM2 & HM3).
  { assert (forall p, p ∈ c_multi st -> nsort (p.1) (p.2) = Ok p /\ p.1 <> p.2 /\ 2 <= cnt p (pre ++ [(a, b)])) as Hold.
    { intros p Hp. destruct (Hmul p Hp) as (? & ? & ?). split_and!; [done..|]. rewrite Hcs. lia. }
    unfold M'. destruct (decide (RR (c_net st) x y <> 0%Z)) as [Hw|Hw].
    - assert (x <> y) as Hxy by (intros ->; by rewrite Hz in Hw).
      assert (1 <= cnt (x, y) pre) as Hc1. { rewrite (Hcons x y Hxy) in Hw. destruct (decide _); done. }
      split; [by apply NoDup_sadd|]. split.
      + intros p [->|Hp]%elem_of_sadd; [|by apply Hold]. split_and!; [done..|]. rewrite Hcs, ind_true by done. lia.
      + intros c d Hne Hc. rewrite Hcs in Hc. destruct (decide (2 <= cnt (c, d) pre)) as [H2|H2].
        * destruct (Htwo c d Hne H2) as (p & Hp & ?). exists p. split; [apply elem_of_sadd; by right|done].
        * exists (x, y). split; [apply elem_of_sadd; by left|]. destruct (decide (sameq (c, d) (a, b))) as [Hs|Hs]; [|rewrite ind_false in Hc by done; lia].
          eapply sameq_trans; [exact Hsx|by apply sameq_sym].
    - split; [done|]. split; [done|]. intros c d Hne Hc. rewrite Hcs in Hc. apply Htwo; [done|].
      destruct (decide (sameq (c, d) (a, b))) as [Hs|Hs]; [rewrite ind_true in Hc by done|rewrite ind_false in Hc by done; lia]. assert (RR (c_net st) x y = 0%Z) as Hw0 by lia.
      assert (sameq (x, y) (c, d)) as Hs2. { eapply sameq_trans; [exact Hsx|by apply sameq_sym]. }
      assert (x <> y) as Hxy. { intros ->. apply sameq_iff in Hs2 as [[? ?]|[? ?]]; congruence. }
      pose proof (CONS_zero _ _ _ _ Hcons Hxy Hw0) as H0. rewrite (cnt_sameq _ _ _ Hs2) in H0. lia. }
  assert (pre ++ [(a, b)] ≡ₚ (a, b) :: pre) as Hp by by rewrite Permutation_app_comm.
  destruct (decide (x = y)) as [Exy'|Nxy].
  - assert (a = x /\ b = x) as [-> ->] by (destruct Eor as [[= ? ?]|[= ? ?]]; split; congruence). subst y. clear Eor.
    split; [|done]. split; cbn [c_net c_slots c_self c_multi c_idx]; try done.
    + apply (CONS_perm _ ((x, x) :: pre)); [done|]. intros c d Hne. rewrite cnt_cons_ne; [by apply Hcons|]. rewrite sameq_iff. intros [[? ?]|[? ?]]; congruence.
    + by apply NoDup_dset.
    + intros z. destruct (decide (z = x)) as [->|Hne].
      * rewrite dget_dset_eq. simpl. by apply IDX_snoc_yes.
      * rewrite dget_dset_ne by done. apply IDX_snoc_no; [done|]. congruence.
  - destruct (setw_ok (c_net st) x y 1 Hnet Nxy Kx Ky) as (n' & -> & Hn' & HR). cbn [rbind].
    split; [|done]. split; cbn [c_net c_slots c_self c_multi c_idx]; try done.
    + apply (CONS_ext (upd (RR (c_net st)) x y 1)); [|done]. apply (CONS_perm _ ((a, b) :: pre)); [done|]. by apply CONS_add.
    + intros z. rewrite HR, upd_self by done. apply Hz.
    + intros z. apply IDX_snoc_no; [done|]. intros [= -> ->]. destruct Eor as [[= ? ?]|[= ? ?]]; congruence.
Qed.
Lemma first_pass : forall sl pre st, First pre st -> (forall q, q ∈ sl -> K (q.1) /\ K (q.2)) ->
  match rfold conf_edge st (zip (seq (length pre) (length sl)) sl) with
  | Ok st' => First (pre ++ sl) st' /\ c_slots st' = c_slots st
  | Err e => terr e
  end.
Proof.
  induction sl as [|[a b] sl IH]; intros pre st H HK; cbn [length seq zip zip_with rfold]; [by rewrite app_nil_r|].
  destruct (HK (a, b) ltac:(left)) as [Ka Kb]. pose proof (conf_edge_spec pre st a b H Ka Kb) as Hc.
  destruct (conf_edge st (length pre, (a, b))) as [st'|e]; [|done]. destruct Hc as [Hc Es].
  specialize (IH (pre ++ [(a, b)]) st' Hc ltac:(intros; apply HK; by right)). rewrite app_length in IH. simpl in IH. rewrite Nat.add_1_r in IH.
  fold (zip (seq (S (length pre)) (length sl)) sl). destruct (rfold conf_edge st' _) as [st2|e]; [|done]. destruct IH as [? ?]. rewrite <- app_assoc in H0. split; [done|congruence].
Qed.
Lemma first_inv sl st : First sl st -> c_slots st = sl -> length sl = L -> (forall x, tot (ends x) sl = D x) -> (forall q, q ∈ sl -> K (q.1) /\ K (q.2)) ->
  Inv (c_multi st) (c_self st ≫= fun kv => (fun si => (kv.1, si)) <$> kv.2) st /\ big (c_multi st) st.
Proof.
  intros [Hnet Hcons Hz Htwo HndM Hmul Hidx HndS Hself] Es HL HD HK. subst sl.
  assert (forall p, p ∈ c_multi st -> exists l, dget (c_idx st) p = Some l /\ IDX l (c_slots st) (sameq p) /\ 2 <= length l) as Hl.
  { intros p Hp. destruct (Hmul p Hp) as (Hc & Hne & H2). specialize (Hidx p Hc). pose proof (IDX_len (sameq p) _ _ Hidx) as Hlen.
    destruct (dget (c_idx st) p) as [l|]; simpl in *; [|lia]. exists l. split_and!; [done..|lia]. }
  split; [|intros p Hp; destruct (Hl p Hp) as (l & ? & _ & ?); exists l; split; [done|lia]]. split; try done.
  - intros p Hp. by destruct (Hmul p Hp) as (? & ? & ?).
  - intros p Hp. destruct (Hl p Hp) as (l & ? & ? & _); eauto.
  - apply NoDup_bind.
    + apply (NoDup_fmap_1 fst). exact HndS.
    + intros [x l] Hx. apply (dget_elem_of (c_self st)) in Hx; [|done]. specialize (Hself x). rewrite Hx in Hself. cbn [fst snd].
      apply NoDup_fmap_2; [by intros ?? [=]|apply Hself].
    + intros [x l] [x' l'] [z s] Hx Hx' Hxs Hxs'. cbn [fst snd] in *. apply elem_of_list_fmap in Hxs as (? & [= -> ->] & _). apply elem_of_list_fmap in Hxs' as (? & [= <- ->] & _).
      apply (dget_elem_of (c_self st)) in Hx; [|done]. apply (dget_elem_of (c_self st)) in Hx'; [|done]. congruence.
  - intros x s. rewrite elem_of_list_bind. destruct (Hself x) as [_ Hs]. split.
    + intros ([x' l] & Hf & Hx). cbn [fst snd] in Hf. apply elem_of_list_fmap in Hf as (? & [= <- <-] & Hsl). apply (dget_elem_of (c_self st)) in Hx; [|done].
      rewrite Hx in Hs. apply Hs in Hsl as (q & ? & <-). done.
    + intros Hq. assert (s ∈ default [] (dget (c_self st) x)) as Hsl by (apply Hs; eauto).
      destruct (dget (c_self st) x) as [l|] eqn:El; [|by apply elem_of_nil in Hsl]. apply (dget_elem_of (c_self st)) in El; [|done].
      exists (x, l). split; [|done]. cbn [fst snd]. by apply elem_of_list_fmap_1.
Qed.
End conf.

(** ** Counting *)
Fixpoint occ (x : name) (l : list name) : nat := match l with [] => 0 | y :: l => (if decide (x = y) then 1 else 0) + occ x l end.
Global Instance occ_proper x : Proper ((≡ₚ) ==> (=)) (occ x).
Proof. intros l1 l2 H. induction H; simpl; lia. Qed.
Lemma occ_app x l1 l2 : occ x (l1 ++ l2) = occ x l1 + occ x l2.
Proof. induction l1; simpl; lia. Qed.
Lemma occ_replicate x y k : occ x (replicate k y) = if decide (x = y) then k else 0.
Proof. induction k as [|k IH]; simpl; destruct (decide (x = y)); lia. Qed.
Lemma list_ind2 {A} (P : list A -> Prop) : P [] -> (forall x, P [x]) -> (forall x y l, P l -> P (x :: y :: l)) -> forall l, P l.
Proof.
  intros H0 H1 H2 l. enough (P l /\ forall x, P (x :: l)) by tauto. induction l as [|y l [IH1 IH2]]; [done|]. split; [done|]. intros x. by apply H2.
Qed.
Lemma tot_pair_up x l : Nat.even (length l) = true -> tot (ends x) (pair_up l) = occ x l.
Proof. induction l as [|y|y z l IH] using list_ind2; intros H; [done|done|]. cbn [pair_up tot occ]. unfold ends at 1. cbn [fst snd]. rewrite IH by done. lia. Qed.
Lemma length_pair_up {A} (l : list A) : length (pair_up l) = length l / 2.
Proof. induction l as [|y|y z l IH] using list_ind2; [done|done|]. cbn [pair_up length]. rewrite IH. change (S (S (length l))) with (1 * 2 + length l). by rewrite Nat.div_add_l. Qed.
Lemma elem_of_pair_up {A} (l : list A) q : q ∈ pair_up l -> q.1 ∈ l /\ q.2 ∈ l.
Proof.
  induction l as [|y|y z l IH] using list_ind2; cbn [pair_up]; [by intros ?%elem_of_nil..|]. intros [->|H%IH]%elem_of_cons; cbn [fst snd]; rewrite !elem_of_cons; [auto|].
  destruct H; auto.
Qed.
Definition stubs_of (degs : list (name * nat)) : list name := degs ≫= fun xk => replicate (xk.2) (xk.1).
Lemma elem_of_stubs degs x : x ∈ stubs_of degs <-> exists k, (x, k) ∈ degs /\ k <> 0.
Proof.
  unfold stubs_of. rewrite elem_of_list_bind. split.
  - intros ([y k] & Hx & Hin). cbn [fst snd] in Hx. apply elem_of_replicate in Hx as [-> ?]. eauto.
  - intros (k & Hin & Hk). exists (x, k). split; [|done]. by apply elem_of_replicate.
Qed.
Lemma length_stubs degs : length (stubs_of degs) = sum_list (degs.*2).
Proof. unfold stubs_of. induction degs as [|[x k] degs IH]; [done|]. rewrite bind_cons, app_length, IH, replicate_length. done. Qed.
Lemma occ_stubs degs x k : NoDup (degs.*1) -> (x, k) ∈ degs -> occ x (stubs_of degs) = k.
Proof.
  assert (forall degs, x ∉ degs.*1 -> occ x (stubs_of degs) = 0) as H0.
  { clear. induction degs as [|[y k] degs IH]; [done|]. rewrite fmap_cons, not_elem_of_cons. intros [Hy Hn]. unfold stubs_of. rewrite bind_cons, occ_app, occ_replicate. fold (stubs_of degs).
    cbn [fst snd] in *. by rewrite decide_False, IH. }
  induction degs as [|[y j] degs IH]; [by intros _ ?%elem_of_nil|]. rewrite fmap_cons, NoDup_cons. intros [Hy Hnd] Hin. unfold stubs_of. rewrite bind_cons, occ_app, occ_replicate.
  fold (stubs_of degs). cbn [fst snd] in *. apply elem_of_cons in Hin as [[= <- <-]|Hin].
  - rewrite decide_True by done. rewrite H0 by done. lia.
  - rewrite decide_False, IH; [done..|]. intros ->. apply Hy. apply elem_of_list_fmap. by exists (y, k).
Qed.
(** The other ends of the pairs at [x]. *)
Fixpoint partners (x : name) (sl : list (name * name)) : list name :=
  match sl with
  | [] => []
  | q :: sl => if decide (x = q.1) then q.2 :: partners x sl else if decide (x = q.2) then q.1 :: partners x sl else partners x sl
  end.
Lemma partners_spec x sl : (forall q, q ∈ sl -> q.1 <> q.2) -> (forall y, cnt (x, y) sl <= 1) ->
  length (partners x sl) = tot (ends x) sl /\ NoDup (partners x sl) /\ forall y, y ∈ partners x sl <-> 1 <= cnt (x, y) sl.
Proof.
  induction sl as [|[a b] sl IH]; intros Hs Hc.
  { split; [done|]. split; [apply NoDup_nil_2|]. intros y. simpl. rewrite elem_of_nil. lia. }
  destruct IH as (H1 & H2 & H3). { intros q Hq. apply Hs. by right. } { intros y. specialize (Hc y). rewrite tot_cons in Hc. lia. }
  specialize (Hs (a, b) ltac:(left)). cbn [fst snd] in Hs. cbn [partners fst snd]. rewrite tot_cons. unfold ends at 1. cbn [fst snd].
  assert (forall c, sameq (x, c) (a, b) -> NoDup (c :: partners x sl) /\ forall y, y ∈ c :: partners x sl <-> 1 <= cnt (x, y) ((a, b) :: sl)) as Hgo.
  { intros c Hsc. split.
    - apply NoDup_cons. split; [|done]. rewrite H3. specialize (Hc c). rewrite cnt_cons_eq in Hc by done. lia.
    - intros y. rewrite elem_of_cons, H3. destruct (decide (sameq (x, y) (a, b))) as [Hy|Hy].
      + rewrite cnt_cons_eq by done. split; [lia|]. intros _. left. apply sameq_iff in Hsc, Hy. destruct Hsc as [[? ?]|[? ?]], Hy as [[? ?]|[? ?]]; congruence.
      + rewrite cnt_cons_ne by done. split; [|by right]. by intros [->|?]. }
  destruct (decide (x = a)) as [->|Ha].
  - rewrite decide_False by done. destruct (Hgo b) as [G1 G2]; [apply sameq_refl|]. split; [simpl; lia|]. done.
  - destruct (decide (x = b)) as [->|Hb].
    + destruct (Hgo a) as [G1 G2]; [apply sameq_iff; by right|]. split; [simpl; lia|]. done.
    + split; [done|]. split; [done|]. intros y. rewrite H3, cnt_cons_ne; [done|]. rewrite sameq_iff. tauto.
Qed.
