(** * Facts about diagnostics: dijkstra *)
From Verif Require Export Diag TransFacts.

(** The heap returns an entry with the least distance. *)
Definition heap_choice (choose : nat -> list (Z * nl * nl) -> nat) : Prop :=
  forall k q, q <> [] -> exists D s t, q !! choose k q = Some (D, s, t) /\
    forall D' s' t', (D', s', t') ∈ q -> (D <= D')%Z.

Section dijkstra.
  Variable asp : nat.
  Variable U src : list nl.
  Variable nbs : nl -> res (list nl).
  Variable wt : nl -> nl -> res Z.
  Variable nb : nl -> list nl.
  Variable W : nl -> nl -> Z.
  Hypothesis HUsrc : forall s, s ∈ src -> s ∈ U.
  Hypothesis HUlen : forall a, a ∈ U -> length a = S asp.
  Hypothesis Hnbs : forall a, a ∈ U -> nbs a = Ok (nb a).
  Hypothesis HUnb : forall a b, a ∈ U -> b ∈ nb a -> b ∈ U.
  Hypothesis Hwt : forall a b, a ∈ U -> b ∈ nb a -> wt a b = Ok (W a b).
  Hypothesis Hwts : forall s, s ∈ src -> wt s s = Ok (W s s).
  Hypothesis Hpos : forall a b, a ∈ U -> b ∈ nb a -> (0 < W a b)%Z.

  Inductive wk : nl -> nl -> Z -> Prop :=
  | wk_nil a : wk a a 0
  | wk_snoc a b c D : wk a b D -> c ∈ nb b -> wk a c (D + W b c).

  Record dinv (t : nl) (rem : list nl) (q : list (Z * nl * nl)) (d : dict nl Z) (log : list (nl * nl)) (lo : Z) : Prop := {
    v_nd : NoDup (dkeys d);
    v_U : forall x D, dget d x = Some D -> x ∈ U;
    v_q : forall D s x, (D, s, x) ∈ q -> s ∈ U /\ (lo <= D)%Z /\ (exists c, dget d x = Some c /\ (c <= D)%Z) /\
      ((s = x /\ s ∈ src /\ D = 0%Z) \/ (x ∈ nb s /\ exists Ds, dget d s = Some Ds /\ (Ds <= lo)%Z /\ D = (Ds + W s x)%Z));
    v_src : forall s, s ∈ src -> dget d s = Some 0%Z /\ ((s, s) ∈ log \/ (0%Z, s, s) ∈ q);
    v_walk : forall x D, dget d x = Some D -> (0 <= D)%Z /\ exists s, s ∈ src /\ wk s x D;
    v_log : forall s x, (s, x) ∈ log -> exists Ds Dx, dget d s = Some Ds /\ dget d x = Some Dx /\ (Ds <= lo)%Z /\ (Dx <= lo)%Z /\
      ((s = x /\ s ∈ src) \/ (x ∈ nb s /\ Dx = (Ds + W s x)%Z));
    v_done : forall x D, dget d x = Some D -> (exists s, (D, s, x) ∈ q) \/
      ((D <= lo)%Z /\ (exists s, (s, x) ∈ log) /\ forall y, y ∈ nb x -> (x = t /\ y ∈ rem) \/
         exists Dy, dget d y = Some Dy /\ ((Dy < D + W x y)%Z \/
           (Dy = (D + W x y)%Z /\ ((x, y) ∈ log \/ ((D + W x y)%Z, x, y) ∈ q))));
    v_lo : (0 <= lo)%Z }.

  Lemma relax_inv t y rem q d log lo : t ∈ U -> y ∈ nb t -> dget d t = Some lo -> dinv t (y :: rem) q d log lo ->
    exists q' d', relax wt lo t (q, d) y = Ok (q', d') /\ dinv t rem q' d' log lo /\ dget d' t = Some lo /\
      ((q' = q /\ d' = d) \/ (q' = q ++ [((lo + W t y)%Z, t, y)] /\ d' = dset d y (lo + W t y)%Z)).
  Proof.
    intros Ht Hy Hdt HI. unfold relax. rewrite Hwt by done. cbn [rbind fst snd].
    pose proof (Hpos t y Ht Hy) as Hp. set (nd := (lo + W t y)%Z) in *.
    destruct (match dget d y with None => true | Some c => bool_decide (nd <= c)%Z end) eqn:Ego.
    - assert (Hst : forall z v, dget d z = Some v -> (v <= lo)%Z -> dget (dset d y nd) z = Some v).
      { intros z v Hz Hv. rewrite dget_dset_ne; [done|]. intros ->. rewrite Hz in Ego. apply bool_decide_eq_true in Ego. lia. }
      assert (Hle : forall z v, dget d z = Some v -> exists v', dget (dset d y nd) z = Some v' /\ (v' <= v)%Z).
      { intros z v Hz. destruct (decide (z = y)) as [->|Hne].
        - rewrite dget_dset_eq. eexists. split; [done|]. rewrite Hz in Ego. by apply bool_decide_eq_true in Ego.
        - rewrite dget_dset_ne by done. eauto with lia. }
      do 2 eexists. split; [done|]. split; [|split; [by apply Hst; [|lia]|by right]].
      destruct HI as [I1 I2 I3 I4 I5 I6 I7 I8]. constructor.
      + by apply NoDup_dset.
      + intros x D. rewrite dget_dset. destruct (decide (x = y)) as [->|]; [intros _; by apply (HUnb t)|apply I2].
      + intros D s x [Hin|[= -> -> ->]%elem_of_list_singleton]%elem_of_app.
        * destruct (I3 _ _ _ Hin) as (H1 & H2 & (c & H3 & H4) & H5). split; [done|]. split; [done|]. split.
          -- destruct (Hle _ _ H3) as (c' & ? & ?). exists c'. split; [done|lia].
          -- destruct H5 as [?|(H5 & Ds & H6 & H7 & H8)]; [by left|]. right. split; [done|]. exists Ds. split; [by apply Hst|done].
        * split; [done|]. split; [lia|]. split; [exists nd; split; [by rewrite dget_dset_eq|lia]|]. right. split; [done|].
          exists lo. split; [by apply Hst; [|lia]|]. split; [lia|done].
      + intros s Hs. destruct (I4 s Hs) as [H1 H2]. split; [apply Hst; [done|lia]|]. destruct H2; [by left|]. right. apply elem_of_app. by left.
      + intros x D. rewrite dget_dset. destruct (decide (x = y)) as [->|]; [|apply I5]. intros [= <-]. split; [lia|].
        destruct (I5 t lo Hdt) as (_ & s & Hs & Hw). exists s. split; [done|]. by constructor.
      + intros s x Hl. destruct (I6 s x Hl) as (Ds & Dx & H1 & H2 & H3 & H4 & H5). exists Ds, Dx. split; [by apply Hst|]. split; [by apply Hst|]. done.
      + intros x D Hx. destruct (decide (x = y)) as [->|Hne].
        { left. rewrite dget_dset_eq in Hx. injection Hx as <-. exists t. apply elem_of_app. right. by apply elem_of_list_singleton. }
        rewrite dget_dset_ne in Hx by done. destruct (I7 x D Hx) as [[s Hs]|(H1 & H2 & H3)].
        { left. exists s. apply elem_of_app. by left. }
        right. split; [done|]. split; [done|]. intros z Hz.
        assert ((x = t /\ z = y) \/ (x = t /\ z ∈ rem) \/ exists Dy, dget d z = Some Dy /\ ((Dy < D + W x z)%Z \/
           (Dy = (D + W x z)%Z /\ ((x, z) ∈ log \/ ((D + W x z)%Z, x, z) ∈ q)))) as [[-> ->]|[?|(Dy & H4 & H5)]].
        { destruct (H3 z Hz) as [[? [->|?]%elem_of_cons]|?]; [by left|right; by left|right; by right]. }
        * right. exists nd. rewrite dget_dset_eq. split; [done|]. right. assert (D = lo) as -> by congruence. split; [done|]. right.
          apply elem_of_app. right. by apply elem_of_list_singleton.
        * by left.
        * right. destruct (Hle _ _ H4) as (v & Hv & Hvle). exists v. split; [done|].
          destruct (decide (v < D + W x z)%Z) as [|Hnlt]; [by left|]. right. destruct H5 as [|[-> H5]]; [lia|]. split; [lia|].
          destruct H5 as [?|?]; [by left|]. right. apply elem_of_app. by left.
      + done.
    - destruct (dget d y) as [c|] eqn:Hc; [|done]. apply bool_decide_eq_false in Ego.
      do 2 eexists. split; [done|]. split; [|split; [done|by left]].
      destruct HI as [I1 I2 I3 I4 I5 I6 I7 I8]. constructor; try done.
      intros x D Hx. destruct (I7 x D Hx) as [?|(H1 & H2 & H3)]; [by left|]. right. split; [done|]. split; [done|].
      intros z Hz. destruct (H3 z Hz) as [[-> [->|?]%elem_of_cons]|?]; [|by left|by right].
      right. exists c. split; [done|]. left. assert (D = lo) as -> by congruence. lia.
  Qed.

  Variable M : Z.
  Hypothesis HM : forall a b, a ∈ U -> b ∈ nb a -> (W a b <= M)%Z.
  Hypothesis HM0 : (0 <= M)%Z.
  Variable K : nat.
  Hypothesis HK : forall a, a ∈ U -> length (nb a) <= K.
  Definition bnd (q : list (Z * nl * nl)) (d : dict nl Z) : Prop :=
    (forall x D, dget d x = Some D -> (D <= M * Z.of_nat (length d))%Z) /\
    (forall D s x, (D, s, x) ∈ q -> (D <= M * Z.of_nat (length d))%Z).
  Definition top : Z := (M * Z.of_nat (length U))%Z.
  Definition cost (e : Z * nl * nl) : nat := S K ^ Z.to_nat (top + 1 - e.1.1).
  Definition mu (q : list (Z * nl * nl)) : nat := sum_list_with cost q.

  Lemma mu_perm q q' : q ≡ₚ q' -> mu q = mu q'.
  Proof. unfold mu. induction 1; simpl; lia. Qed.
  Lemma dict_le_U t rem q d log lo : dinv t rem q d log lo -> length d <= length U.
  Proof.
    intros HI. rewrite <- (dkeys_length d). apply sub_len_le; [apply HI|].
    intros x [D HD]%dkeys_dget. by eapply (v_U _ _ _ _ _ _ HI).
  Qed.
  Lemma relax_bnd t y q d lo : t ∈ U -> y ∈ nb t -> dget d t = Some lo -> bnd q d ->
    bnd (q ++ [((lo + W t y)%Z, t, y)]) (dset d y (lo + W t y)%Z) \/ (exists c, dget d y = Some c /\ (c < lo + W t y)%Z).
  Proof.
    intros Ht Hy Hdt [B1 B2]. pose proof (HM t y Ht Hy) as HW.
    destruct (dget d y) as [c|] eqn:Hc.
    - destruct (decide (c < lo + W t y)%Z); [right; eauto|]. left. unfold bnd. rewrite dset_length_old by (rewrite Hc; eauto).
      split.
      + intros x D. rewrite dget_dset. destruct (decide (x = y)); [|apply B1]. intros [= <-]. specialize (B1 y c Hc). lia.
      + intros D s x [Hin|[= -> -> ->]%elem_of_list_singleton]%elem_of_app; [by eapply B2|]. specialize (B1 y c Hc). lia.
    - left. unfold bnd. rewrite dset_length_new by done. specialize (B1 t lo Hdt) as B0. split.
      + intros x D. rewrite dget_dset. destruct (decide (x = y)); [intros [= <-]; lia|]. intros Hx. specialize (B1 x D Hx). lia.
      + intros D s x [Hin|[= -> -> ->]%elem_of_list_singleton]%elem_of_app; [specialize (B2 _ _ _ Hin)|]; lia.
  Qed.
  Lemma relax_all t rem : t ∈ U -> (forall y, y ∈ rem -> y ∈ nb t) -> forall q d log lo,
    dget d t = Some lo -> dinv t rem q d log lo -> bnd q d ->
    exists q' d', rfold (relax wt lo t) (q, d) rem = Ok (q', d') /\ dinv t [] q' d' log lo /\ bnd q' d' /\
      mu q' <= mu q + length rem * S K ^ Z.to_nat (top - lo).
  Proof.
    intros Ht. induction rem as [|y rem IH]; intros Hin q d log lo Hdt HI HB; [exists q, d; cbn; split; [done|]; split; [done|]; split; [done|lia]|].
    destruct (relax_inv t y rem q d log lo Ht ltac:(apply Hin; left) Hdt HI) as (q1 & d1 & E1 & HI1 & Hdt1 & Hc).
    assert (bnd q1 d1) as HB1.
    { destruct Hc as [[-> ->]|[-> ->]]; [done|]. destruct (relax_bnd t y q d lo Ht ltac:(apply Hin; left) Hdt HB) as [?|(c & Hc & Hlt)]; [done|].
      exfalso. unfold relax in E1. rewrite Hwt in E1 by (done || apply Hin; left). cbn [rbind fst snd] in E1. rewrite Hc in E1.
      rewrite bool_decide_eq_false_2 in E1 by lia. injection E1 as E1 _. apply (f_equal length) in E1. rewrite app_length in E1. simpl in E1. lia. }
    destruct (IH ltac:(intros z Hz; apply Hin; by right) q1 d1 log lo Hdt1 HI1 HB1) as (q2 & d2 & E2 & HI2 & HB2 & Hmu).
    exists q2, d2. cbn. rewrite E1. split; [done|]. split; [done|]. split; [done|].
    enough (mu q1 <= mu q + S K ^ Z.to_nat (top - lo)) by (cbn [length] in *; lia).
    destruct Hc as [[-> _]|[-> _]]; [lia|]. unfold mu. rewrite sum_list_with_app. simpl. unfold cost at 2. simpl.
    assert (S K ^ Z.to_nat (top + 1 - (lo + W t y)) <= S K ^ Z.to_nat (top - lo)); [|lia].
    apply Nat.pow_le_mono_r; [lia|]. pose proof (Hpos t y Ht ltac:(apply Hin; left)). lia.
  Qed.

  Lemma step_inv t0 st log lo i D s t : dinv t0 [] (dq st) (dd st) log lo -> bnd (dq st) (dd st) ->
    hist asp (-1) true false ((fun p => OpNodeSet (p.1) (p.2) (W (p.1) (p.2))) <$> log) (dfor st) ->
    dq st !! i = Some (D, s, t) -> (forall D' s' t', (D', s', t') ∈ dq st -> (D <= D')%Z) ->
    exists st' log' lo' t', dij_step nbs wt st i = Ok st' /\ dinv t' [] (dq st') (dd st') log' lo' /\ bnd (dq st') (dd st') /\
      hist asp (-1) true false ((fun p => OpNodeSet (p.1) (p.2) (W (p.1) (p.2))) <$> log') (dfor st') /\
      mu (dq st') < mu (dq st).
  Proof.
    intros HI HB Hh Hi Hmin. unfold dij_step. rewrite Hi.
    pose proof (delete_Permutation _ _ _ Hi) as Hperm. set (q := delete i (dq st)) in *.
    assert (Hin : forall e, e ∈ dq st <-> e = (D, s, t) \/ e ∈ q) by (intros e; rewrite Hperm; apply elem_of_cons).
    destruct HI as [I1 I2 I3 I4 I5 I6 I7 I8].
    destruct (I3 D s t ltac:(apply Hin; by left)) as (HsU & HloD & (c & Hc & HcD) & Hkind). rewrite Hc.
    assert (t ∈ U) as HtU by by eapply I2.
    assert (0 < cost (D, s, t)) as Hcost. { unfold cost. assert (S K ^ Z.to_nat (top + 1 - (D, s, t).1.1) <> 0); [|lia]. by apply Nat.pow_nonzero. }
    assert (mu (dq st) = cost (D, s, t) + mu q) as Hmu.
    { by rewrite (mu_perm _ _ Hperm). }
    destruct (decide (D <= c)%Z) as [HDc|HDc].
    - assert (c = D) as -> by lia. rewrite decide_True by done.
      assert (wt s t = Ok (W s t)) as ->. { destruct Hkind as [(-> & Hs & _)|[Ht _]]; [by apply Hwts|by apply Hwt]. } cbn [rbind].
      destruct (do_op_ok asp (-1) true false _ (dfor st) (OpNodeSet s t (W s t)) Hh) as [f Ef].
      { exists s, t, (W s t). split; [|done]. apply writes_spec. split_and!; auto. }
      rewrite Ef. cbn [rbind]. rewrite Hnbs by done. cbn [rbind].
      assert (dinv t (nb t) q (dd st) (log ++ [(s, t)]) D) as HI'.
      { constructor.
        - done.
        - done.
        - intros D' s' x He. destruct (I3 D' s' x ltac:(apply Hin; by right)) as (H1 & H2 & H3 & H4).
          split; [done|]. split; [eapply Hmin; apply Hin; right; done|]. split; [done|].
          destruct H4 as [?|(H4 & Ds & H5 & H6 & H7)]; [by left|]. right. split; [done|]. exists Ds. split; [done|]. split; [lia|done].
        - intros s' Hs'. destruct (I4 s' Hs') as [H1 H2]. split; [done|]. destruct H2 as [H2|[[= _ -> ->]|H2]%Hin].
          + left. apply elem_of_app. by left.
          + left. apply elem_of_app. right. by apply elem_of_list_singleton.
          + by right.
        - done.
        - intros s' x [Hl|[= -> ->]%elem_of_list_singleton]%elem_of_app.
          + destruct (I6 s' x Hl) as (Ds & Dx & H1 & H2 & H3 & H4 & H5). exists Ds, Dx. split_and!; [done|done|lia|lia|done].
          + destruct Hkind as [(-> & Hs & _)|(Ht & Ds & H1 & H2 & H3)].
            * exists D, D. split_and!; [done|done|lia|lia|]. by left.
            * exists Ds, D. split_and!; [done|done|lia|lia|]. right. done.
        - intros x D' Hx. destruct (decide (x = t)) as [->|Hne].
          { right. assert (D' = D) as -> by congruence. split; [lia|]. split; [exists s; apply elem_of_app; right; by apply elem_of_list_singleton|].
            intros y Hy. left. done. }
          destruct (I7 x D' Hx) as [[s' [[= -> -> ->]|Hs']%Hin]|(H1 & [s' H2] & H3)]; [done|left; eauto|].
          right. split; [lia|]. split; [exists s'; apply elem_of_app; by left|]. intros y Hy. right.
          destruct (H3 y Hy) as [[_ ?%elem_of_nil]|(Dy & H4 & H5)]; [done|]. exists Dy. split; [done|].
          destruct H5 as [?|[H5 H6]]; [by left|]. right. split; [done|]. destruct H6 as [H6|[[= H6 -> ->]|H6]%Hin].
          + left. apply elem_of_app. by left.
          + left. apply elem_of_app. right. by apply elem_of_list_singleton.
          + by right.
        - lia. }
      assert (bnd q (dd st)) as HB'. { destruct HB as [B1 B2]. split; [done|]. intros D' s' x He. apply (B2 D' s' x). apply Hin. by right. }
      destruct (relax_all t (nb t) HtU ltac:(done) q (dd st) _ D Hc HI' HB') as (q' & d' & Er & HIf & HBf & Hmuf).
      rewrite Er. cbn [rbind fst snd]. exists (MkD q' d' f), (log ++ [(s, t)]), D, t. split; [done|]. split; [done|]. split; [done|]. split.
      { rewrite fmap_app. cbn [fmap list_fmap fst snd]. by eapply do_op_hist. }
      simpl. rewrite Hmu. pose proof (dict_le_U _ _ _ _ _ _ HI') as Hlen.
      assert (D <= top)%Z as HDt. { destruct HB' as [B1 _]. specialize (B1 t D Hc). unfold top. nia. }
      assert (cost (D, s, t) = S K * S K ^ Z.to_nat (top - D)) as ->.
      { unfold cost. simpl fst. replace (Z.to_nat (top + 1 - D)) with (S (Z.to_nat (top - D))) by lia. done. }
      pose proof (HK t HtU). assert (S K ^ Z.to_nat (top - D) <> 0) by by apply Nat.pow_nonzero. nia.
    - exists (MkD q (dd st) (dfor st)), log, lo, t0. split; [done|]. split; [|split; [|split; [done|]]].
      + constructor; cbn [dq dd dfor]; try done.
        * intros D' s' x He. apply I3. apply Hin. by right.
        * intros s' Hs'. destruct (I4 s' Hs') as [H1 H2]. split; [done|]. destruct H2 as [H2|[[= HD0 -> ->]|H2]%Hin]; [by left| |by right].
          assert (c = 0%Z) by congruence. lia.
        * intros x D' Hx. destruct (I7 x D' Hx) as [[s' [[= HD0 -> ->]|Hs']%Hin]|(H1 & H2 & H3)].
          -- assert (c = D') by congruence. lia.
          -- left. eauto.
          -- right. split; [done|]. split; [done|]. intros y Hy. right.
             destruct (H3 y Hy) as [[_ ?%elem_of_nil]|(Dy & H4 & H5)]; [done|]. exists Dy. split; [done|].
             destruct H5 as [?|[H5 H6]]; [by left|]. right. split; [done|]. destruct H6 as [H6|[[= H6 -> ->]|H6]%Hin]; [by left| |by right].
             assert (c = Dy) by congruence. lia.
      + destruct HB as [B1 B2]. split; [done|]. intros D' s' x He. apply (B2 D' s' x). apply Hin. by right.
      + simpl. rewrite Hmu. lia.
  Qed.

  Lemma loop_inv choose : heap_choice choose -> forall fuel st t log lo, dinv t [] (dq st) (dd st) log lo -> bnd (dq st) (dd st) ->
    hist asp (-1) true false ((fun p => OpNodeSet (p.1) (p.2) (W (p.1) (p.2))) <$> log) (dfor st) -> mu (dq st) <= fuel ->
    exists d f log' lo' t', dij_loop nbs wt choose fuel st = Ok (d, f) /\ dinv t' [] [] d log' lo' /\
      hist asp (-1) true false ((fun p => OpNodeSet (p.1) (p.2) (W (p.1) (p.2))) <$> log') f.
  Proof.
    intros Hch. induction fuel as [|fuel IH]; intros st t log lo HI HB Hh Hmu.
    - destruct st as [q d f]. simpl in *. destruct q as [|e q]; [exists d, f, log, lo, t; done|].
      exfalso. unfold mu in Hmu. simpl in Hmu. assert (cost e <> 0); [|lia]. by apply Nat.pow_nonzero.
    - destruct st as [q d f]. destruct q as [|e q]; [exists d, f, log, lo, t; done|].
      destruct (Hch fuel (e :: q) ltac:(done)) as (D & s & x & Hi & Hmin).
      destruct (step_inv t (MkD (e :: q) d f) log lo _ D s x HI HB Hh Hi Hmin) as (st' & log' & lo' & t' & Es & HI' & HB' & Hh' & Hlt).
      simpl dij_loop. cbn [dq] in *. rewrite Es. cbn [rbind]. apply (IH st' t' log' lo'); [done|done|done|lia].
  Qed.

  Lemma dget_zeros l x : dget (foldl (fun d s => dset d s 0%Z) ([] : dict nl Z) l) x = if decide (x ∈ l) then Some 0%Z else None.
  Proof.
    induction l as [|y l IH] using rev_ind; [done|]. rewrite foldl_app. simpl. rewrite dget_dset, IH.
    destruct (decide (x = y)) as [->|Hne].
    - rewrite decide_True; [done|]. apply elem_of_app. right. by apply elem_of_list_singleton.
    - destruct (decide (x ∈ l)), (decide (x ∈ l ++ [y])) as [Hin|Hin]; try done.
      + exfalso. apply Hin. apply elem_of_app. by left.
      + exfalso. apply elem_of_app in Hin as [?|?%elem_of_list_singleton]; done.
  Qed.
  Lemma NoDup_zeros l : NoDup (dkeys (foldl (fun d s => dset d s 0%Z) ([] : dict nl Z) l)).
  Proof. induction l as [|y l IH] using rev_ind; [constructor|]. rewrite foldl_app. simpl. by apply NoDup_dset. Qed.

  Lemma wk_bound a b D : wk a b D -> forall d, (forall s, s ∈ src -> dget d s = Some 0%Z) ->
    (forall x D0, dget d x = Some D0 -> forall y, y ∈ nb x -> exists Dy, dget d y = Some Dy /\ (Dy <= D0 + W x y)%Z) ->
    a ∈ src -> exists D0, dget d b = Some D0 /\ (D0 <= D)%Z.
  Proof.
    intros Hw d Hs Hd. induction Hw as [a|a b c D Hw IH Hc]; intros Ha; [exists 0%Z; split; [by apply Hs|lia]|].
    destruct (IH Ha) as (D0 & H0 & Hle). destruct (Hd b D0 H0 c Hc) as (Dy & Hy & Hyle). exists Dy. split; [done|lia].
  Qed.

  (** The result of dijkstra: exact distances, and the forest is the graph of all
      shortest-path links (with a self-link at every source). *)
  Theorem dij_spec : exists N, forall choose fuel, heap_choice choose -> N <= fuel ->
    exists d f log, dijkstra_gen asp nbs wt choose fuel src = Ok (d, f) /\
      NoDup (dkeys d) /\
      (forall x D, dget d x = Some D <-> (exists s, s ∈ src /\ wk s x D) /\ forall s D', s ∈ src -> wk s x D' -> (D <= D')%Z) /\
      hist asp (-1) true false ((fun p => OpNodeSet (p.1) (p.2) (W (p.1) (p.2))) <$> log) f /\
      (forall s x, (s, x) ∈ log <-> (s = x /\ s ∈ src) \/
         (x ∈ nb s /\ exists Ds Dx, dget d s = Some Ds /\ dget d x = Some Dx /\ Dx = (Ds + W s x)%Z)) /\
      (forall x, is_Some (dget d x) -> exists s, (s, x) ∈ log) /\
      (forall x, is_Some (dget d x) -> x ∈ U).
  Proof.
    exists (mu (dq (dij_init asp src))). intros choose fuel Hch Hfuel.
    destruct (loop_inv choose Hch fuel (dij_init asp src) [] [] 0) as (d & f & log & lo & t & E & HI & Hh).
    - constructor; simpl.
      + apply NoDup_zeros.
      + intros x D. rewrite dget_zeros. destruct (decide (x ∈ src)); [|done]. intros _. auto.
      + intros D s x (s' & [= -> -> ->] & Hs)%elem_of_list_fmap. split; [auto|]. split; [lia|]. split; [|by left].
        exists 0%Z. rewrite dget_zeros, decide_True by done. split; [done|lia].
      + intros s Hs. rewrite dget_zeros, decide_True by done. split; [done|]. right. apply elem_of_list_fmap. eauto.
      + intros x D. rewrite dget_zeros. destruct (decide (x ∈ src)); [|done]. intros [= <-]. split; [lia|]. exists x. split; [done|constructor].
      + intros s x H. by apply elem_of_nil in H.
      + intros x D. rewrite dget_zeros. destruct (decide (x ∈ src)); [|done]. intros [= <-]. left. exists x. apply elem_of_list_fmap. eauto.
      + lia.
    - split; simpl.
      + intros x D. rewrite dget_zeros. destruct (decide (x ∈ src)); [|done]. intros [= <-]. nia.
      + intros D s x (s' & [= -> -> ->] & Hs)%elem_of_list_fmap. nia.
    - simpl. constructor.
    - done.
    - destruct HI as [I1 I2 I3 I4 I5 I6 I7 I8]. exists d, f, log. split; [done|]. split; [done|].
      assert (Hrel : forall x D0, dget d x = Some D0 -> forall y, y ∈ nb x -> exists Dy, dget d y = Some Dy /\
         ((Dy < D0 + W x y)%Z \/ (Dy = (D0 + W x y)%Z /\ (x, y) ∈ log))).
      { intros x D0 Hx y Hy. destruct (I7 x D0 Hx) as [[s Hs]|(_ & _ & H)]; [by apply elem_of_nil in Hs|].
        destruct (H y Hy) as [[_ ?%elem_of_nil]|(Dy & H1 & H2)]; [done|]. exists Dy. split; [done|].
        destruct H2 as [?|[? [?|?%elem_of_nil]]]; [by left|by right|done]. }
      assert (Hmin : forall s x D', s ∈ src -> wk s x D' -> exists D0, dget d x = Some D0 /\ (D0 <= D')%Z).
      { intros s x D' Hs Hw. eapply (wk_bound s x D' Hw d); [intros ? H; by apply I4| |done].
        intros y D0 Hy z Hz. destruct (Hrel y D0 Hy z Hz) as (Dz & ? & ?). exists Dz. split; [done|lia]. }
      split; [|split; [done|split; [|split]]].
      + intros x D. split.
        * intros Hx. split; [apply I5; done|]. intros s D' Hs Hw. destruct (Hmin s x D' Hs Hw) as (D0 & H0 & ?). assert (D0 = D) by congruence. lia.
        * intros [(s & Hs & Hw) Hle]. destruct (Hmin s x D Hs Hw) as (D0 & H0 & HD). rewrite H0. f_equal.
          destruct (I5 x D0 H0) as (_ & s' & Hs' & Hw'). specialize (Hle s' D0 Hs' Hw'). lia.
      + intros s x. split.
        * intros Hl. destruct (I6 s x Hl) as (Ds & Dx & H1 & H2 & _ & _ & [?|[H3 H4]]); [by left|]. right. eauto 8.
        * intros [[-> Hs]|(Hx & Ds & Dx & H1 & H2 & H3)].
          -- by destruct (I4 x Hs) as [_ [?|?%elem_of_nil]].
          -- destruct (Hrel s Ds H1 x Hx) as (Dx' & H4 & [H5|[_ H5]]); [|done]. assert (Dx' = Dx) by congruence. lia.
      + intros x [D Hx]. destruct (I7 x D Hx) as [[s Hs]|(_ & H & _)]; [by apply elem_of_nil in Hs|done].
      + intros x [D Hx]. by eapply I2.
  Qed.
End dijkstra.

(** The forest written by a list of calls [forest[a][b]=w]. *)
Lemma log_links asp noe fi (W : nl -> nl -> Z) log f :
  hist asp noe true fi ((fun p => OpNodeSet (p.1) (p.2) (W (p.1) (p.2))) <$> log) f ->
  (forall a b, (a, b) ∈ log -> length a = S asp /\ length b = S asp) ->
  forall a b, rd f a b = if decide ((a, b) ∈ log) then W a b else noe.
Proof.
  intros Hh Hlen a b. rewrite (hist_refines _ _ _ _ _ _ Hh). unfold spec_run.
  assert (Hwr : forall o a' b' w, o ∈ ((fun p => OpNodeSet (p.1) (p.2) (W (p.1) (p.2))) <$> log) ->
            write_of asp o = Some (a', b', w) -> (a', b') ∈ log /\ w = W a' b').
  { intros o a' b' w ([x y] & -> & Hp)%elem_of_list_fmap Hw. apply writes_spec in Hw as (<- & <- & <- & _). done. }
  destruct (decide ((a, b) ∈ log)) as [Hin|Hno].
  - apply spec_fold_agree.
    + intros o a' b' w Ho Hw [[-> ->]|[? _]]; [|done]. by destruct (Hwr _ _ _ _ Ho Hw).
    + exists (OpNodeSet a b (W a b)), a, b, (W a b). split; [apply elem_of_list_fmap; by exists (a, b)|]. split; [|by left].
      apply writes_spec. destruct (Hlen a b Hin). done.
  - rewrite spec_fold_miss; [done|]. intros o a' b' w Ho Hw [[-> ->]|[? _]]; [|done]. by destruct (Hwr _ _ _ _ Ho Hw).
Qed.
Lemma log_present asp noe dir (W : nl -> nl -> Z) log f :
  hist asp noe dir false ((fun p => OpNodeSet (p.1) (p.2) (W (p.1) (p.2))) <$> log) f ->
  (forall a b, (a, b) ∈ log -> length a = S asp /\ length b = S asp) ->
  forall a, a ∈ iter_node_layers f <-> exists b, (a, b) ∈ log \/ (b, a) ∈ log.
Proof.
  intros Hh Hlen a. destruct (decide (asp = 0)) as [->|Hne].
  - destruct (hist_inv _ _ _ _ _ _ Hh) as [HS HL Ha Hn Hd Hf]. simpl in Hf.
    rewrite elem_of_iter_node_layers, nl_in_slices_sl, (wfS_len _ HS), Ha, Hf by done.
    setoid_rewrite (hist_sl _ _ _ _ _ _ Hh). simpl.
    assert (Hm : forall x, (exists o, o ∈ ((fun p => OpNodeSet (p.1) (p.2) (W (p.1) (p.2))) <$> log) /\ mentions 0 true o 0 x) <->
       exists b, ([x], b) ∈ log \/ (b, [x]) ∈ log).
    { intros x. split.
      - intros (o & ([u v] & -> & Hp)%elem_of_list_fmap & a' & b' & w & (_ & Ea & Eb & Hl1 & Hl2) & Hx). simpl in *. subst u v.
        destruct a' as [|? [|]]; try done. destruct b' as [|? [|]]; try done. simpl in Hx. destruct Hx as [[= ->]|[= ->]]; eauto.
      - intros (b & [Hp|Hp]); [exists (OpNodeSet [x] b (W [x] b))|exists (OpNodeSet b [x] (W b [x]))];
          (split; [apply elem_of_list_fmap; eexists (_, _); done|]); destruct (Hlen _ _ Hp); do 3 eexists; (split; [split_and!; done|]); [by left|by right]. }
    split.
    + intros [[Hl Hk] _]. destruct a as [|x [|]]; try done. apply Hm. by apply (Hk 0 x).
    + intros (b & Hb). assert (length a = 1) by (destruct Hb as [Hb|Hb]; by destruct (Hlen _ _ Hb)). split; [|done]. split; [done|].
      destruct a as [|x [|]]; try done. intros [|k] y Hk; [|done]. injection Hk as <-. apply Hm. eauto.
  - rewrite (hist_present_nonfic _ _ _ _ _ Hh) by done. split.
    + intros (o & ([u v] & -> & Hp)%elem_of_list_fmap & b & w & [(_ & <- & <- & _)|(_ & <- & <- & _)]); simpl in *; eauto.
    + intros (b & Hb). destruct Hb as [Hb|Hb]; destruct (Hlen _ _ Hb).
      * exists (OpNodeSet a b (W a b)). split; [apply elem_of_list_fmap; by exists (a, b)|]. exists b, (W a b). left. done.
      * exists (OpNodeSet b a (W b a)). split; [apply elem_of_list_fmap; by exists (b, a)|]. exists b, (W b a). right. done.
Qed.
Lemma exists_bound {A} (f : A -> Z) (l : list A) : exists M, (0 <= M)%Z /\ forall x, x ∈ l -> (f x <= M)%Z.
Proof.
  induction l as [|x l (M & H0 & IH)]; [exists 0%Z; split; [lia|]; intros x Hx; by apply elem_of_nil in Hx|].
  exists (Z.max M (f x)). split; [lia|]. intros y [->|Hy]%elem_of_cons; [lia|]. specialize (IH y Hy). lia.
Qed.
