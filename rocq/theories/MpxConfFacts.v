(** * The configuration model on a layer of a multiplex network does what it does on a
    network of its own *)
From Verif Require Import MpxConf ConfFacts ModelsFacts MpxHist MpxIter PropsNet PropsMpx PropsTrans TransFacts.

(** A log of calls that can be made on either network. *)
Inductive lop := LA (x : name) | LS (a b : name) (w : Z).
Definition lop_op (o : lop) : op := match o with LA x => OpAddNode x None | LS a b w => OpSet [a; b] w end.
Definition lop_mop (l : name) (o : lop) : mop := match o with LA x => MAAddNode (LBare l) x | LS a b w => MASet (LBare l) [a; b] w end.
Definition lsafe (o : lop) : Prop := match o with LA _ => True | LS a b _ => a <> b end.
Definition lnames (o : lop) (x : name) : Prop := match o with LA y => x = y | LS a b _ => x = a \/ x = b end.
Definition lstep (s : name -> name -> Z) (o : lop) : name -> name -> Z :=
  match o with LA _ => s | LS a b w => fun x y => if decide (nhit false a b x y) then w else s x y end.
Definition lrun (os : list lop) : name -> name -> Z := fold_left lstep os (fun _ _ => 0%Z).

(** Results that are equal up to a relation. *)
Definition rsim {A B} (R : A -> B -> Prop) (r : res A) (s : res B) : Prop :=
  match r, s with Ok a, Ok b => R a b | Err e, Err e' => e = e' | _, _ => False end.
Lemma rsim_bind {A B A' B'} (R : A -> B -> Prop) (Q : A' -> B' -> Prop) r s f g :
  rsim R r s -> (forall a b, R a b -> rsim Q (f a) (g b)) -> rsim Q (rbind r f) (rbind s g).
Proof. destruct r as [a|e], s as [b|e']; cbn; intros H Hf; [by apply Hf|done|done|by subst]. Qed.
Lemma rsim_bind_eq {A A' B'} (Q : A' -> B' -> Prop) (r : res A) f g :
  (forall a, r = Ok a -> rsim Q (f a) (g a)) -> rsim Q (rbind r f) (rbind r g).
Proof. destruct r; cbn; intros Hf; [by apply Hf|done]. Qed.
Lemma rsim_rfold {A S T} (R : S -> T -> Prop) (f : S -> A -> res S) (g : T -> A -> res T) l : forall s t,
  (forall s t x, x ∈ l -> R s t -> rsim R (f s x) (g t x)) -> R s t -> rsim R (rfold f s l) (rfold g t l).
Proof.
  induction l as [|x l IH]; intros s t Hf HR; [done|]. cbn [rfold]. apply (rsim_bind R); [apply Hf; [left|done]|]. intros a b Hab. apply IH; [|done].
  intros; apply Hf; [by right|done].
Qed.
Lemma nsort_cases a b x y : nsort a b = Ok (x, y) -> (x = a /\ y = b) \/ (x = b /\ y = a).
Proof. unfold nsort. destruct (py_gt a b) as [g|]; [|done]. cbn. intros [= E]. destruct g; injection E as <- <-; auto. Qed.

Section Sim.
  Context (c : coupling) (fi : bool) (h0 : list call) (p0 : mpx) (l : name).
  Hypothesis H0 : mhist [c] false 0 fi h0 p0.
  Hypothesis Hl : mhas p0 1 l.
  Hypothesis Hfresh : forall x y, mspec 1 false (LBare l) h0 x y = 0%Z.
  Local Notation n0 := (new_net 0 0 false true).

  Definition logged (os : list lop) (n : mlnet) (p : mpx) : Prop :=
    Forall lsafe os /\ build n0 (lop_op <$> os) = Ok n /\ mbuild p0 (lop_mop l <$> os) = Ok p.
  Definition SR (n : mlnet) (p : mpx) : Prop := exists os, logged os n p.
  Lemma logged_hist os n p : logged os n p -> hist 0 0 false true (lop_op <$> os) n /\ mhist [c] false 0 fi (h0 ++ (okc <$> (lop_mop l <$> os))) p.
  Proof using H0 Hl.
    intros (Hs & Hb & Hm). split; [exact (build_hist 0 0 false true _ [] _ _ (hist_init 0 0 false true) Hb)|].
    destruct (mbuild_safe c false 0 fi (lop_mop l <$> os) h0 p0 H0) as (p' & E & Hh).
    - apply Forall_fmap. apply (Forall_impl _ _ _ Hs). intros [x|a b w]; cbn; auto.
    - by assert (p' = p) as -> by congruence.
  Qed.
  Lemma spec_lrun os x y : spec_run 0 0 false (lop_op <$> os) [x] [y] = lrun os x y.
  Proof.
    induction os as [|o os IH] using rev_ind; [done|]. rewrite fmap_app. unfold spec_run, lrun in *. rewrite !fold_left_app. cbn [fmap list_fmap fold_left].
    destruct o as [z|a b w]; cbn [lop_op lstep]; [exact IH|]. unfold spec_step at 1. change (write_of 0 (OpSet [a; b] w)) with (Some ([a], [b], w)). cbv iota beta.
    assert (hit false [a] [b] [x] [y] <-> nhit false a b x y) as Hh.
    { unfold hit, nhit. split; intros [[??]|(?&?&?)]; simplify_eq; auto. }
    destruct (decide (hit false [a] [b] [x] [y])) as [H|H], (decide (nhit false a b x y)) as [H'|H']; try done; try (by exfalso; tauto).
  Qed.
  Lemma mspec_lrun os x y : mspec 1 false (LBare l) (h0 ++ (okc <$> (lop_mop l <$> os))) x y = lrun os x y.
  Proof using Hfresh.
    revert x y. induction os as [|o os IH] using rev_ind; intros x y; [cbn; by rewrite app_nil_r|]. rewrite !fmap_app, app_assoc. cbn [fmap list_fmap]. rewrite mspec_app.
    unfold lrun. rewrite fold_left_app. fold (lrun os). cbn [fold_left]. unfold mspec_step. destruct o as [z|a b w]; cbn [lop_mop okc mwrite fst snd lstep]; [apply IH|].
    rewrite decide_True by (split; [done|by left]). by rewrite IH.
  Qed.
  Lemma mspec_other os l' x y : l' <> l -> mspec 1 false (LBare l') (h0 ++ (okc <$> (lop_mop l <$> os))) x y = mspec 1 false (LBare l') h0 x y.
  Proof.
    intros Hne. revert x y. induction os as [|o os IH] using rev_ind; intros x y; [cbn; by rewrite app_nil_r|]. rewrite !fmap_app, app_assoc. cbn [fmap list_fmap]. rewrite mspec_app.
    unfold mspec_step. destruct o as [z|a b w]; cbn [lop_mop okc mwrite fst snd]; [apply IH|]. rewrite decide_False by naive_solver. apply IH.
  Qed.
  Lemma logged_get os n p a b : logged os n p -> getw n a b = Ok (lrun os a b) /\ mgetw l p a b = Ok (lrun os a b).
  Proof using H0 Hl Hfresh.
    intros HL. destruct (logged_hist _ _ _ HL) as [Hn Hp]. split.
    - unfold getw. rewrite (getitem_names n [a; b] [a] [b]).
      + f_equal. change (rd n [a] [b] = lrun os a b). rewrite (hist_refines _ _ _ _ _ _ Hn). apply spec_lrun.
      + destruct (hist_inv _ _ _ _ _ _ Hn) as [_ _ -> _ _ _]. exact (names_short 0 a b [] eq_refl).
    - assert (mhas p 1 l) as Hl' by (eapply hist_mono; [exact H0|exact Hp|done]).
      destruct (mhas_pA _ _ _ _ _ _ _ Hp Hl') as [m Hm]. unfold mgetw, agetitem. rewrite Hm. cbn [length]. rewrite decide_True by done. f_equal.
      rewrite (view_get _ _ _ _ _ _ _ _ _ _ (mhist_inv _ _ _ _ _ _ Hp) Hm). apply mspec_lrun.
  Qed.
  Lemma logged_set os n p a b w : logged os n p -> a <> b -> exists n' p', setw n a b w = Ok n' /\ msetw l p a b w = Ok p' /\ logged (os ++ [LS a b w]) n' p'.
  Proof using H0 Hl.
    intros HL Hne. destruct (logged_hist _ _ _ HL) as [Hn Hp]. destruct HL as (Hs & Hb & Hm).
    destruct (do_op_ok 0 0 false true _ n (OpSet [a; b] w) Hn) as [n' E].
    { exists [a], [b], w. split; [done|]. intros _ _ [= ?]. done. }
    assert (mhas p 1 l) as Hl' by (eapply hist_mono; [exact H0|exact Hp|done]).
    destruct (do_mop_safe _ _ _ _ _ _ (MASet (LBare l) [a; b] w) Hp) as (p' & E' & _); [split; [done|by left]|].
    exists n', p'. split; [done|]. split; [done|]. split; [apply Forall_app; split; [done|]; by repeat constructor|]. rewrite !fmap_app. split.
    - unfold build. rewrite rfold_app. fold (build n0 (lop_op <$> os)). rewrite Hb. cbn. unfold build. cbn. by rewrite E.
    - unfold mbuild. rewrite rfold_app. fold (mbuild p0 (lop_mop l <$> os)). rewrite Hm. cbn. by rewrite E'.
  Qed.
  Lemma SR_get {A B} (Q : A -> B -> Prop) n p a b f g : SR n p -> (forall w, rsim Q (f w) (g w)) -> rsim Q (rbind (getw n a b) f) (rbind (mgetw l p a b) g).
  Proof using H0 Hl Hfresh. intros [os HL] Hf. destruct (logged_get _ _ _ a b HL) as [-> ->]. apply Hf. Qed.
  Lemma SR_set n p a b w : SR n p -> a <> b -> rsim SR (setw n a b w) (msetw l p a b w).
  Proof using H0 Hl. intros [os HL] Hne. destruct (logged_set _ _ _ a b w HL Hne) as (n' & p' & -> & -> & HL'). by eexists. Qed.
  Lemma SR_puts n p qs : SR n p -> (forall q, q ∈ qs -> q.1.1 <> q.1.2) -> rsim SR (rfold put n qs) (rfold (mput l) p qs).
  Proof using H0 Hl. intros HR Hq. apply rsim_rfold; [|done]. intros s t q Hin Hst. apply SR_set; [done|by apply Hq]. Qed.

  Definition SS (st : cst) (dt : dst) : Prop :=
    SR (c_net st) (d_net dt) /\ c_slots st = d_slots dt /\ c_self st = d_self dt /\ c_multi st = d_multi dt /\ c_idx st = d_idx dt.
  Lemma edge_sim st dt t : SS st dt -> rsim SS (conf_edge st t) (mconf_edge l dt t).
  Proof using H0 Hl Hfresh.
    destruct st as [n sl se mu ix], dt as [p sl' se' mu' ix']. intros (HR & E1 & E2 & E3 & E4). cbn in *. subst. destruct t as [s [a b]].
    unfold conf_edge, mconf_edge. apply rsim_bind_eq. intros [x y] _. cbn [c_net d_net c_slots d_slots c_self d_self c_multi d_multi c_idx d_idx]. apply SR_get; [done|]. intros w.
    destruct (decide (x = y)); [by split|]. apply (rsim_bind SR); [by apply SR_set|]. intros n' p' HR'. by split.
  Qed.
  Definition OSS (o : option cst) (o' : option dst) : Prop := match o, o' with Some s, Some t => SS s t | None, None => True | _, _ => False end.
  Definition PSS (a : cst * list (nat * nat)) (b : dst * list (nat * nat)) : Prop := SS (a.1) (b.1) /\ a.2 = b.2.
  Lemma self_try_sim st dt node si e1 e2 : SS st dt -> rsim OSS (self_try st node si e1 e2) (mself_try l dt node si e1 e2).
  Proof using H0 Hl Hfresh.
    destruct st as [n sl se mu ix], dt as [p sl' se' mu' ix']. intros (HR & E1 & E2 & E3 & E4). cbn in *. subst.
    unfold self_try, mself_try, slot, mslot. cbn [c_net d_net c_slots d_slots c_self d_self c_multi d_multi c_idx d_idx].
    apply rsim_bind_eq. intros [a1 b1] _. apply rsim_bind_eq. intros [a2 b2] _. cbn [fst snd].
    apply rsim_bind_eq. intros [n2 n3] S1. apply rsim_bind_eq. intros [n4 n5] S2. destruct (decide (NoDup _)) as [Hnd|]; [|done].
    destruct (decide (_ /\ _)); [|done]. do 3 (apply SR_get; [done|]; intros ?). destruct (decide (_ /\ _)); [|done].
    apply (rsim_bind SR).
    - apply SR_puts; [done|]. apply nsort_cases in S1, S2. repeat setoid_rewrite NoDup_cons in Hnd. repeat setoid_rewrite elem_of_cons in Hnd.
      intros q Hq. repeat (apply elem_of_cons in Hq as [->|Hq]; [cbn [fst snd]; destruct S1 as [[-> ->]|[-> ->]], S2 as [[-> ->]|[-> ->]]; naive_solver|]). by apply elem_of_nil in Hq.
    - intros n' p' HR'. do 3 (apply rsim_bind_eq; intros ? _). by split.
  Qed.
  Lemma draw_sim st dt rnd : SS st dt -> draw st rnd = mdraw dt rnd.
  Proof. intros (_ & E & _). unfold draw, mdraw. by rewrite E. Qed.
  Lemma self_loop_sim f node si : forall st dt rnd, SS st dt -> rsim PSS (self_loop f st node si rnd) (mself_loop l f dt node si rnd).
  Proof using H0 Hl Hfresh.
    induction f as [|f IH]; intros st dt rnd HS; [done|]. cbn [self_loop mself_loop]. rewrite (draw_sim _ _ _ HS). apply rsim_bind_eq. intros [[e1 e2] rnd'] _.
    apply (rsim_bind OSS); [by apply self_try_sim|]. intros [s|] [t|] Ho; try done. by apply IH.
  Qed.
  Lemma self_phase_sim st dt rnd : SS st dt -> rsim PSS (self_phase st rnd) (mself_phase l dt rnd).
  Proof using H0 Hl Hfresh.
    intros HS. unfold self_phase, mself_phase. assert (c_self st = d_self dt) as -> by apply HS. apply rsim_rfold; [|by split].
    intros [s r] [t r'] x _ [HS' E]. cbn in E. subst r'. by apply self_loop_sim.
  Qed.
  Lemma multi_try_sim st dt n1 n2 e1 e2 : SS st dt -> rsim OSS (multi_try st n1 n2 e1 e2) (mmulti_try l dt n1 n2 e1 e2).
  Proof using H0 Hl Hfresh.
    destruct st as [n sl se mu ix], dt as [p sl' se' mu' ix']. intros (HR & E1 & E2 & E3 & E4). cbn in *. subst.
    unfold multi_try, mmulti_try, slot, mslot. cbn [c_net d_net c_slots d_slots c_self d_self c_multi d_multi c_idx d_idx].
    apply rsim_bind_eq. intros [a1 b1] _. apply rsim_bind_eq. intros [a2 b2] _. cbn [fst snd].
    apply rsim_bind_eq. intros [n3 n4] S1. apply rsim_bind_eq. intros [n5 n6] S2. destruct (decide (NoDup _)) as [Hnd|]; [|done].
    destruct (decide (_ /\ _)); [|done]. do 4 (apply SR_get; [done|]; intros ?). destruct (decide (_ /\ _)); [|done].
    destruct (dget ix' (n1, n2)) as [js|]; [|done].
    apply nsort_cases in S1, S2. repeat setoid_rewrite NoDup_cons in Hnd. repeat setoid_rewrite elem_of_cons in Hnd.
    apply (rsim_bind SR); [destruct (decide _); [apply SR_set; [done|naive_solver]|done]|]. intros n' p' HR'.
    do 2 (apply SR_get; [done|]; intros ?). destruct (decide (_ /\ _)); [|done].
    apply (rsim_bind SR).
    - apply SR_puts; [done|].
      intros q Hq. repeat (apply elem_of_cons in Hq as [->|Hq]; [cbn [fst snd]; destruct S1 as [[-> ->]|[-> ->]], S2 as [[-> ->]|[-> ->]]; naive_solver|]). by apply elem_of_nil in Hq.
    - intros n'' p'' HR''. destruct (reverse js) as [|x [|y r]]; [done..|]. do 4 (apply rsim_bind_eq; intros ? _). by split.
  Qed.
  Lemma multi_loop_sim f n1 n2 : forall st dt rnd, SS st dt -> rsim PSS (multi_loop f st n1 n2 rnd) (mmulti_loop l f dt n1 n2 rnd).
  Proof using H0 Hl Hfresh.
    induction f as [|f IH]; intros st dt rnd HS; [done|]. cbn [multi_loop mmulti_loop]. rewrite (draw_sim _ _ _ HS). apply rsim_bind_eq. intros [[e1 e2] rnd'] _.
    apply (rsim_bind OSS); [by apply multi_try_sim|]. intros [s|] [t|] Ho; try done. by apply IH.
  Qed.
  Lemma multi_edge_sim a b q : PSS a b -> rsim PSS (multi_edge a q) (mmulti_edge l b q).
  Proof using H0 Hl Hfresh.
    intros [HS E]. unfold multi_edge, mmulti_edge. assert (c_idx (a.1) = d_idx (b.1)) as -> by apply HS. destruct (dget _ q) as [js|]; [|done].
    apply rsim_rfold; [|by split]. intros [s r] [t r'] x _ [HS' E']. cbn in E'. subst r'. by apply multi_loop_sim.
  Qed.
  Lemma layer_conf_sim degs sh order rnd : rsim SR (single_layer_conf degs sh order rnd) (layer_conf l p0 degs sh order rnd).
  Proof using H0 Hl Hfresh.
    unfold single_layer_conf, layer_conf. set (A := degs ≫= fun xk => if decide (xk.2 = 0) then [OpAddNode (xk.1) None] else []).
    set (B := degs ≫= fun xk => if decide (xk.2 = 0) then [MAAddNode (LBare l) (xk.1)] else []).
    assert (exists os, Forall lsafe os /\ A = lop_op <$> os /\ B = lop_mop l <$> os) as (os & Hs & EA & EB).
    { subst A B. clear. induction degs as [|[x k] degs (os & Hs & EA & EB)]; [by exists []|]. cbn [mbind list_bind fst snd]. rewrite EA, EB.
      destruct (decide (k = 0)); [exists (LA x :: os)|exists os]; split_and!; try done. by constructor. }
    assert (rsim SR (build n0 A) (mbuild p0 B)) as HR.
    { rewrite EA, EB. clear EA EB A B. induction os as [|o os IH] using rev_ind; [by exists []; split|].
      apply Forall_app in Hs as [Hs Ho]. specialize (IH Hs). rewrite !fmap_app. unfold build, mbuild in *. rewrite !rfold_app.
      eapply rsim_bind; [exact IH|]. intros n p HR. cbn [fmap list_fmap rfold]. apply Forall_inv in Ho. destruct o as [x|a b w].
      - destruct HR as [ws HL]. destruct (logged_hist _ _ _ HL) as [Hn Hp]. destruct HL as (Hws & Hb & Hm).
        destruct (do_op_ok 0 0 false true _ n (OpAddNode x None) Hn) as [n' E]; [done|].
        assert (mhas p 1 l) as Hl' by (eapply hist_mono; [exact H0|exact Hp|done]).
        destruct (do_mop_safe _ _ _ _ _ _ (MAAddNode (LBare l) x) Hp) as (p' & E' & _); [done|]. cbn [lop_op lop_mop]. rewrite E, E'. cbn.
        exists (ws ++ [LA x]). split; [apply Forall_app; split; [done|]; by repeat constructor|]. rewrite !fmap_app. split.
        + unfold build. rewrite rfold_app. fold (build n0 (lop_op <$> ws)). rewrite Hb. cbn [rbind fmap list_fmap rfold lop_op]. by rewrite E.
        + unfold mbuild. rewrite rfold_app. fold (mbuild p0 (lop_mop l <$> ws)). rewrite Hm. cbn [rbind fmap list_fmap rfold lop_mop]. by rewrite E'.
      - cbn [lop_op lop_mop]. eapply (rsim_bind SR); [by apply SR_set|]. done. }
    eapply rsim_bind; [exact HR|]. intros n p HR'. destruct (decide (_ /\ _)); [|done]. destruct (decide (sh ≡ₚ _)); [|done].
    eapply (rsim_bind SS); [apply rsim_rfold; [intros; by apply edge_sim|by split]|]. intros st dt HS.
    eapply (rsim_bind PSS); [by apply self_phase_sim|]. intros r r' HP.
    assert (c_multi st = d_multi dt) as -> by apply HS. destruct (decide (order ≡ₚ _)); [|done].
    eapply (rsim_bind PSS); [apply rsim_rfold; [intros; by apply multi_edge_sim|done]|]. intros r1 r2 [HS' _]. apply HS'.
  Qed.
End Sim.
