(** * Facts about dijkstra_mlayer_prune *)
From Verif Require Import PropsNet PropsTrans DiagFacts DiagPrune Build NetIter TransFacts.
Local Open Scope nat_scope.

Notation wops W log := ((fun p : nl * nl => OpNodeSet (p.1) (p.2) (W (p.1) (p.2))) <$> log).

Lemma in_dec (log : list (nl * nl)) u : (exists z, (z, u) ∈ log) \/ forall z, (z, u) ∉ log.
Proof.
  induction log as [|[z v] log IH]; [right; by intros z ?%elem_of_nil|]. destruct IH as [[z' Hz]|IH]; [left; exists z'; by right|].
  destruct (decide (v = u)) as [->|Hne]; [left; exists z; left|]. right. intros z' [[= -> ->]|Hz]%elem_of_cons; [done|by apply (IH z')].
Qed.
Section Path.
  Context (asp : nat) (f : mlnet) (log0 : list (nl * nl)) (W : nl -> nl -> Z).
  Context (Hf : hist asp (-1) true false (wops W log0) f) (Hlen0 : forall a b, (a, b) ∈ log0 -> length a = S asp /\ length b = S asp).
  Definition EL (u x : nl) : Prop := (u, x) ∈ log0 /\ W u x <> (-1)%Z.
  Context (rank : nl -> nat) (Hrank : forall u x, EL u x -> u <> x -> rank u < rank x).

  Lemma log_linked g log : hist asp (-1) true false (wops W log) g -> (forall a b, (a, b) ∈ log -> length a = S asp /\ length b = S asp) ->
    forall u x, linked g u x <-> (u, x) ∈ log /\ W u x <> (-1)%Z.
  Proof.
    intros Hg Hlen u x. pose proof (hist_good _ _ _ _ _ _ Hg) as Hgd. destruct (hist_inv _ _ _ _ _ _ Hg) as [_ _ _ Hn _ _].
    rewrite linked_rd by done. rewrite (log_links _ _ _ _ _ _ Hg Hlen), Hn. destruct (decide ((u, x) ∈ log)) as [H|H]; [by split; [|intros [_ ?]]|]. split; [done|]. by intros [? _].
  Qed.
  Lemma elem_E u x : u ∈ iter_in f x None <-> EL u x.
  Proof.
    pose proof (hist_good _ _ _ _ _ _ Hf) as Hg. destruct (iter_in_exact f x None Hg I) as [_ H]. rewrite H. rewrite (log_linked f log0 Hf Hlen0). unfold EL. simpl. tauto.
  Qed.
  Lemma weight_E u x : EL u x -> weight f u x = W u x.
  Proof. intros [H _]. destruct (Hlen0 u x H). rewrite weight_rd by congruence. rewrite (log_links _ _ _ _ _ _ Hf Hlen0). by rewrite decide_True. Qed.

  Definition complete (log : list (nl * nl)) (x : nl) : Prop :=
    forall v, EL v x -> (v, x) ∈ log /\ (v = x \/ (forall z, ~ EL z v) \/ exists z, (z, v) ∈ log).
  Definition sound (log : list (nl * nl)) : Prop := forall u x, (u, x) ∈ log -> EL u x.
  Lemma complete_mono log log' x : complete log x -> complete (log ++ log') x.
  Proof.
    intros H v Hv. destruct (H v Hv) as [H1 H2]. split; [apply elem_of_app; by left|]. destruct H2 as [?|[?|[z Hz]]]; [auto..|]. right; right. exists z. apply elem_of_app. by left.
  Qed.
  Lemma reach_rank x y : rtc EL x y -> rank x <= rank y.
  Proof. induction 1 as [|x y z H _ IH]; [done|]. destruct (decide (x = y)) as [->|Hne]; [done|]. specialize (Hrank x y H Hne). lia. Qed.

  Lemma write_one nt log u x : hist asp (-1) true false (wops W log) nt -> sound log -> EL u x ->
    exists nt', do_op nt (OpNodeSet u x (weight f u x)) = Ok nt' /\ hist asp (-1) true false (wops W (log ++ [(u, x)])) nt' /\ sound (log ++ [(u, x)]) /\
      (forall v, degree_in nt' v None = 0%Z <-> forall z, (z, v) ∉ log ++ [(u, x)]).
  Proof.
    intros Hh Hs HE. rewrite weight_E by done. destruct HE as [HE1 HE2]. destruct (Hlen0 u x HE1) as [L1 L2].
    destruct (do_op_ok _ _ _ _ _ _ (OpNodeSet u x (W u x)) Hh) as [nt' E]; [exists u, x, (W u x); split; [by apply writes_spec|done]|].
    pose proof (do_op_hist _ _ _ _ _ _ _ _ Hh E) as Hh'.
    assert (Hs' : sound (log ++ [(u, x)])) by (intros a b [Hab|[= -> ->]%elem_of_list_singleton]%elem_of_app; [by apply Hs|done]).
    exists nt'. split; [done|]. rewrite fmap_app. split; [done|]. split; [done|]. intros v.
    assert (Hh2 : hist asp (-1) true false (wops W (log ++ [(u, x)])) nt') by (by rewrite fmap_app).
    pose proof (hist_good _ _ _ _ _ _ Hh2) as Hg. rewrite degree_in_iter. destruct (iter_in_exact nt' v None Hg I) as [_ Hi].
    assert (Hll : forall z, z ∈ iter_in nt' v None <-> (z, v) ∈ log ++ [(u, x)]).
    { intros z. rewrite Hi, (log_linked nt' _ Hh2).
      - split; [by intros [[? _] _]|]. intros H. split; [|done]. split; [done|]. by apply (Hs' z v).
      - intros a b Hab. apply Hs' in Hab as [Hab _]. by apply Hlen0. }
    destruct (iter_in nt' v None) as [|z l]; simpl.
    - split; [|done]. intros _ z Hz. apply Hll in Hz. by apply elem_of_nil in Hz.
    - split; [lia|]. intros H. exfalso. apply (H z), Hll. left.
  Qed.
  Lemma build_path_spec fuel : forall nt log node, rank node < fuel -> hist asp (-1) true false (wops W log) nt -> sound log ->
    (forall v x, (v, x) ∈ log -> x <> node -> rank x <= rank node -> complete log x) ->
    exists nt' log', build_path f fuel nt node = Ok nt' /\ hist asp (-1) true false (wops W (log ++ log')) nt' /\ sound (log ++ log') /\
      (forall u x, (u, x) ∈ log' -> rtc EL x node) /\ complete (log ++ log') node /\
      (forall v x, (v, x) ∈ log ++ log' -> rank x <= rank node -> complete (log ++ log') x).
  Proof.
    induction fuel as [|fuel IH]; intros nt log node Hr Hh Hs Hpre; [lia|]. cbn [build_path].
    assert (Hloop : forall rest, (forall u, u ∈ rest -> EL u node) -> forall nt log, hist asp (-1) true false (wops W log) nt -> sound log ->
      (forall v x, (v, x) ∈ log -> x <> node -> rank x <= rank node -> complete log x) ->
      exists nt' log', rfold (fun nt u => let? nt' := do_op nt (OpNodeSet u node (weight f u node)) in
          if decide (degree_in nt' u None = 0%Z) then build_path f fuel nt' u else Ok nt') nt rest = Ok nt' /\
        hist asp (-1) true false (wops W (log ++ log')) nt' /\ sound (log ++ log') /\
        (forall u x, (u, x) ∈ log' -> rtc EL x node) /\
        (forall u, u ∈ rest -> (u, node) ∈ log ++ log' /\ (u = node \/ (forall z, ~ EL z u) \/ exists z, (z, u) ∈ log ++ log')) /\
        (forall v x, (v, x) ∈ log ++ log' -> x <> node -> rank x <= rank node -> complete (log ++ log') x)).
    { clear nt log Hh Hs Hpre. induction rest as [|u rest IHr]; intros Hrest nt log Hh Hs Hpre.
      - exists nt, []. rewrite app_nil_r. split; [done|]. split; [done|]. split; [done|]. split; [by intros u x ?%elem_of_nil|]. split; [by intros u ?%elem_of_nil|done].
      - assert (EL u node) as Hu by (apply Hrest; left). destruct (write_one nt log u node Hh Hs Hu) as (nt1 & E1 & Hh1 & Hs1 & Hdeg).
        cbn [rfold]. rewrite E1. cbn [rbind]. set (log1 := log ++ [(u, node)]) in *.
        assert (Hpre1 : forall v x, (v, x) ∈ log1 -> x <> node -> rank x <= rank node -> complete log1 x).
        { intros v x [Hv|[= -> ->]%elem_of_list_singleton]%elem_of_app Hne Hle; [|done]. by apply complete_mono, (Hpre v). }
        assert (exists nt2 log2, (if decide (degree_in nt1 u None = 0%Z) then build_path f fuel nt1 u else Ok nt1) = Ok nt2 /\
          hist asp (-1) true false (wops W (log1 ++ log2)) nt2 /\ sound (log1 ++ log2) /\ (forall v x, (v, x) ∈ log2 -> rtc EL x node) /\
          (u = node \/ (forall z, ~ EL z u) \/ exists z, (z, u) ∈ log1 ++ log2) /\
          (forall v x, (v, x) ∈ log1 ++ log2 -> x <> node -> rank x <= rank node -> complete (log1 ++ log2) x)) as (nt2 & log2 & E2 & Hh2 & Hs2 & R2 & U2 & P2).
        { destruct (decide (degree_in nt1 u None = 0%Z)) as [Hd|Hd].
          - rewrite Hdeg in Hd. assert (u <> node) as Hne. { intros ->. apply (Hd node). apply elem_of_app. right. by apply elem_of_list_singleton. }
            pose proof (Hrank u node Hu Hne) as Hlt.
            destruct (IH nt1 log1 u) as (nt2 & log2 & E2 & Hh2 & Hs2 & R2 & C2 & P2); [lia|done|done| |].
            { intros v x Hv Hxu Hle. destruct (decide (x = node)) as [->|Hxn]; [lia|]. apply (Hpre1 v x); [done|done|lia]. }
            exists nt2, log2. split; [done|]. split; [done|]. split; [done|]. split; [|split].
            + intros v x Hv. eapply rtc_r; [by apply (R2 v)|done].
            + right. destruct (in_dec (log1 ++ log2) u) as [Hz|Hz]; [by right|]. left. intros z Hz'. apply (Hz z). by apply C2.
            + intros v x Hv Hxn Hle. destruct (decide (rank x <= rank u)) as [Hle'|Hgt]; [by apply (P2 v)|].
              apply elem_of_app in Hv as [Hv|Hv]; [by apply complete_mono, (Hpre1 v)|]. exfalso. apply Hgt. by apply reach_rank, (R2 v).
          - exists nt1, []. rewrite app_nil_r. split; [done|]. split; [done|]. split; [done|]. split; [by intros u' x ?%elem_of_nil|]. split; [|done].
            right; right. rewrite Hdeg in Hd. destruct (in_dec log1 u); [done|]. by destruct Hd. }
        rewrite E2. destruct (IHr ltac:(intros v Hv; apply Hrest; by right) nt2 (log1 ++ log2) Hh2 Hs2 P2) as (nt' & log' & E' & Hh' & Hs' & R' & U' & P').
        exists nt', ([(u, node)] ++ log2 ++ log'). assert ((log1 ++ log2) ++ log' = log ++ [(u, node)] ++ log2 ++ log') as Heq by (unfold log1; by rewrite <- !app_assoc).
        rewrite Heq in *. split; [done|]. split; [done|]. split; [done|]. split; [|split; [|done]].
        + intros v x [[= -> ->]%elem_of_list_singleton|[Hv|Hv]%elem_of_app]%elem_of_app; [done|by apply (R2 v)|by apply (R' v)].
        + intros v [->|Hv]%elem_of_cons; [|by apply U']. split; [apply elem_of_app; right; apply elem_of_app; left; by apply elem_of_list_singleton|].
          destruct U2 as [?|[?|[z Hz]]]; [auto..|]. right; right. exists z. rewrite <- Heq. apply elem_of_app. by left. }
    destruct (Hloop (iter_in f node None)) with (nt := nt) (log := log) as (nt' & log' & E & Hh' & Hs' & R & U & P); [intros u Hu; by apply elem_E|done|done|done|].
    exists nt', log'. assert (complete (log ++ log') node) as Hc. { intros v Hv. apply U. by apply elem_E. }
    split; [done|]. split; [done|]. split; [done|]. split; [done|]. split; [done|]. intros v x Hv Hle. destruct (decide (x = node)) as [->|Hne]; [done|]. by apply (P v).
  Qed.
  Lemma targets_spec (P : nl * Z -> Prop) `{forall q, Decision (P q)} fuel d : (forall q, q ∈ d -> rank (q.1) < fuel) ->
    forall nt log, hist asp (-1) true false (wops W log) nt -> sound log -> (forall v x, (v, x) ∈ log -> complete log x) ->
    exists nt' log', rfold (fun nt (q : nl * Z) => if decide (P q) then build_path f fuel nt (q.1) else Ok nt) nt d = Ok nt' /\
      hist asp (-1) true false (wops W (log ++ log')) nt' /\ sound (log ++ log') /\
      (forall u x, (u, x) ∈ log' -> exists q, q ∈ d /\ P q /\ rtc EL x (q.1)) /\
      (forall q, q ∈ d -> P q -> complete (log ++ log') (q.1)) /\
      (forall v x, (v, x) ∈ log ++ log' -> complete (log ++ log') x).
  Proof.
    induction d as [|q d IH]; intros Hfuel nt log Hh Hs Hc.
    - exists nt, []. rewrite app_nil_r. split; [done|]. split; [done|]. split; [done|]. split; [by intros u x ?%elem_of_nil|]. split; [by intros q ?%elem_of_nil|done].
    - cbn [rfold]. assert (exists nt1 log1, (if decide (P q) then build_path f fuel nt (q.1) else Ok nt) = Ok nt1 /\
        hist asp (-1) true false (wops W (log ++ log1)) nt1 /\ sound (log ++ log1) /\ (forall u x, (u, x) ∈ log1 -> P q /\ rtc EL x (q.1)) /\
        (P q -> complete (log ++ log1) (q.1)) /\ (forall v x, (v, x) ∈ log ++ log1 -> complete (log ++ log1) x)) as (nt1 & log1 & E1 & Hh1 & Hs1 & R1 & T1 & C1).
      { destruct (decide (P q)) as [Hq|Hq].
        - destruct (build_path_spec fuel nt log (q.1)) as (nt1 & log1 & E1 & Hh1 & Hs1 & R1 & T1 & C1); [apply Hfuel; left|done|done|by intros v x Hv _ _; apply (Hc v)|].
          exists nt1, log1. split; [done|]. split; [done|]. split; [done|]. split; [intros u x Hx; split; [done|by apply (R1 u)]|]. split; [done|].
          intros v x Hv. pose proof Hv as [Hv'|Hv']%elem_of_app; [by apply complete_mono, (Hc v)|]. apply (C1 v x Hv). by apply reach_rank, (R1 v).
        - exists nt, []. rewrite app_nil_r. split; [done|]. split; [done|]. split; [done|]. split; [by intros u x ?%elem_of_nil|]. split; [done|done]. }
      rewrite E1. destruct (IH ltac:(intros q' Hq'; apply Hfuel; by right) nt1 (log ++ log1) Hh1 Hs1 C1) as (nt' & log' & E' & Hh' & Hs' & R' & T' & C').
      exists nt', (log1 ++ log'). rewrite <- app_assoc in *. split; [done|]. split; [done|]. split; [done|]. split; [|split; [|done]].
      + intros u x [Hx|Hx]%elem_of_app.
        * destruct (R1 u x Hx). exists q. split; [left|done].
        * destruct (R' u x Hx) as (q' & Hq' & ?). exists q'. split; [by right|done].
      + intros q' [->|Hq']%elem_of_cons Hp; [|by apply T']. rewrite app_assoc. by apply complete_mono, T1.
  Qed.
  Lemma complete_back log t : complete log t -> (forall v x, (v, x) ∈ log -> complete log x) -> forall x, rtc EL x t -> complete log x.
  Proof.
    intros Ht Hall x Hx. induction Hx as [x|x y z Hxy Hyz IH]; [done|]. specialize (IH Ht). destruct (IH x Hxy) as [_ [->|[Hno|[v Hv]]]]; [done| |by apply (Hall v)].
    intros v Hv. by destruct (Hno v).
  Qed.
  (** The pruned forest: the links of the forest on paths to the targets. *)
  Lemma pruned (P : nl * Z -> Prop) `{forall q, Decision (P q)} fuel d : (forall q, q ∈ d -> rank (q.1) < fuel) ->
    exists nt log, rfold (fun nt (q : nl * Z) => if decide (P q) then build_path f fuel nt (q.1) else Ok nt) (new_net asp (-1) true false) d = Ok nt /\
      hist asp (-1) true false (wops W log) nt /\
      forall u x, (u, x) ∈ log <-> EL u x /\ exists q, q ∈ d /\ P q /\ rtc EL x (q.1).
  Proof.
    intros Hfuel. destruct (targets_spec P fuel d Hfuel (new_net asp (-1) true false) []) as (nt & log & E & Hh & Hs & R & T & C).
    - constructor.
    - by intros u x ?%elem_of_nil.
    - by intros v x ?%elem_of_nil.
    - simpl in *. exists nt, log. split; [done|]. split; [done|]. intros u x. split.
      + intros Hx. split; [by apply Hs|by apply (R u)].
      + intros (HE & q & Hq & HP & Hr). by apply (complete_back log (q.1) (T q Hq HP) C x Hr).
  Qed.
End Path.

(** ** The rank: the number of smaller distances *)
Definition drank (d : dict nl Z) (D : Z) : nat := length (filter (fun q : nl * Z => (q.2 < D)%Z) d).
Lemma drank_lt (d : dict nl Z) x D D' : dget d x = Some D -> (D < D')%Z -> drank d D < drank d D'.
Proof.
  unfold drank. induction d as [|[k v] d IH]; [done|]. cbn [dget]. intros Hx HD. rewrite !filter_cons. cbn [snd].
  assert (Hle : length (filter (fun q : nl * Z => (q.2 < D)%Z) d) <= length (filter (fun q : nl * Z => (q.2 < D')%Z) d)).
  { clear -HD. induction d as [|[k v] d IH]; [done|]. rewrite !filter_cons. cbn [snd]. repeat case_decide; simpl; lia. }
  destruct (decide (x = k)) as [->|Hne].
  - injection Hx as ->. rewrite decide_False by lia. rewrite decide_True by done. simpl. lia.
  - specialize (IH Hx HD). repeat case_decide; simpl; lia.
Qed.
Lemma drank_le (d : dict nl Z) D : drank d D <= length d.
Proof. apply filter_length. Qed.

(** ** The selected distances *)
Lemma prune_nd_spec aasp (d : dict nl Z) y D : dget (prune_nd aasp d) y = Some D <->
  (exists x, (x, D) ∈ d /\ select_aspects aasp x = y) /\ forall x D', (x, D') ∈ d -> select_aspects aasp x = y -> (D <= D')%Z.
Proof.
  assert (Hnone : forall d : dict nl Z, dget (prune_nd aasp d) y = None <-> forall x D', (x, D') ∈ d -> select_aspects aasp x <> y).
  { clear. intros d. unfold prune_nd. induction d as [|[x v] d IH] using rev_ind.
    - split; [|done]. by intros _ x D' ?%elem_of_nil.
    - rewrite foldl_app. cbn [foldl]. set (nd := foldl _ _ d) in *. cbn [fst snd].
      assert (forall (n : dict nl Z) v, dget (dset n (select_aspects aasp x) v) y = None <-> select_aspects aasp x <> y /\ dget n y = None) as Hds.
      { intros n w. rewrite dget_dset. destruct (decide (y = select_aspects aasp x)) as [->|Hne]; [by split; [|intros [? _]]|]. split; [intros ?; split; congruence|by intros [_ ?]]. }
      assert (forall x' D', (x', D') ∈ d ++ [(x, v)] <-> (x', D') ∈ d \/ (x', D') = (x, v)) as Hel by (intros; by rewrite elem_of_app, elem_of_list_singleton).
      setoid_rewrite Hel. destruct (dget nd (select_aspects aasp x)) as [c|] eqn:Ec; [destruct (decide (v < c)%Z)|].
      + rewrite Hds, IH. split.
        * intros [H1 H2] x' D' [H|[= -> ->]]; [by apply (H2 x' D')|done].
        * intros H. split; [apply (H x v); by right|]. intros x' D' Hx. apply (H x' D'). by left.
      + rewrite IH. split.
        * intros H x' D' [Hx|[= -> ->]]; [by apply (H x' D')|]. intros <-. assert (dget nd (select_aspects aasp x) = None) by by apply IH. congruence.
        * intros H x' D' Hx. apply (H x' D'). by left.
      + rewrite Hds, IH. split.
        * intros [H1 H2] x' D' [H|[= -> ->]]; [by apply (H2 x' D')|done].
        * intros H. split; [apply (H x v); by right|]. intros x' D' Hx. apply (H x' D'). by left. }
  revert D. induction d as [|[x v] d IH] using rev_ind; intros D.
  - split; [done|]. intros [(x & Hx & _) _]. by apply elem_of_nil in Hx.
  - unfold prune_nd. rewrite foldl_app. cbn [foldl fst snd]. fold (prune_nd aasp d).
    assert (forall x' D', (x', D') ∈ d ++ [(x, v)] <-> (x', D') ∈ d \/ x' = x /\ D' = v) as Hel.
    { intros. rewrite elem_of_app, elem_of_list_singleton. split; [intros [?|[= -> ->]]; auto|intros [?|[-> ->]]; auto]. }
    setoid_rewrite Hel. destruct (decide (select_aspects aasp x = y)) as [Hy|Hy].
    + rewrite Hy. destruct (dget (prune_nd aasp d) y) as [c|] eqn:Ec.
      * destruct (proj1 (IH c) eq_refl) as [(x0 & Hx0 & Hs0) Hmin]. destruct (decide (v < c)%Z) as [Hlt|Hge].
        -- rewrite dget_dset, decide_True by done. split.
           ++ intros [= <-]. split; [exists x; auto|]. intros x' D' [Hx'|[-> ->]] Hs'; [|lia]. specialize (Hmin x' D' Hx' Hs'). lia.
           ++ intros [(x' & [Hx'|[-> ->]] & Hs') Hm]; [|done]. specialize (Hmin x' D Hx' Hs'). specialize (Hm x v ltac:(auto) Hy). lia.
        -- rewrite Ec. split.
           ++ intros [= <-]. split; [exists x0; auto|]. intros x' D' [Hx'|[-> ->]] Hs'; [by apply (Hmin x')|lia].
           ++ intros [(x' & Hx' & Hs') Hm]. f_equal. specialize (Hm x0 c ltac:(auto) Hs0). destruct Hx' as [Hx'|[-> ->]]; [specialize (Hmin x' D Hx' Hs')|]; lia.
      * pose proof (proj1 (Hnone d) Ec) as Hno. rewrite dget_dset, decide_True by done. split.
        -- intros [= <-]. split; [exists x; auto|]. intros x' D' [Hx'|[-> ->]] Hs'; [|lia]. by destruct (Hno x' D' Hx').
        -- intros [(x' & [Hx'|[-> ->]] & Hs') _]; [by destruct (Hno x' D Hx')|done].
    + assert (forall n : dict nl Z, dget (dset n (select_aspects aasp x) v) y = dget n y) as Hds by (intros n; rewrite dget_dset, decide_False by congruence; done).
      assert (dget (match dget (prune_nd aasp d) (select_aspects aasp x) with Some c => if decide (v < c)%Z then dset (prune_nd aasp d) (select_aspects aasp x) v else prune_nd aasp d
        | None => dset (prune_nd aasp d) (select_aspects aasp x) v end) y = dget (prune_nd aasp d) y) as -> by (repeat case_match; rewrite ?Hds; done).
      rewrite IH. split.
      * intros [(x' & Hx' & Hs') Hm]. split; [exists x'; auto|]. intros x2 D2 [H2|[-> ->]] Hs2; [by apply (Hm x2)|done].
      * intros [(x' & [Hx'|[-> ->]] & Hs') Hm]; [|done]. split; [by exists x'|]. intros x2 D2 H2 Hs2. apply (Hm x2); auto.
Qed.


(** ** The sources *)
(** [x] matches the source [s]: any name in the coordinates [aasp], the given name elsewhere. *)
Definition cand (asp : nat) (sls : list (list name)) (aasp : list nat) (s : list (option name)) (x : nl) : Prop :=
  length x = S asp /\ forall a y, x !! a = Some y -> if decide (a ∈ aasp) then exists l, sls !! a = Some l /\ y ∈ l else s !! a = Some (Some y).
Lemma rmapM_inv_fmap {A B} (f : A -> res B) (g : A -> B) l : (forall x, x ∈ l -> f x = Ok (g x)) -> rmapM f l = Ok (g <$> l).
Proof.
  induction l as [|x l IH]; intros H; [done|]. cbn [rmapM]. rewrite (H x ltac:(left)). cbn [rbind]. rewrite IH by (intros; apply H; by right). done.
Qed.
Lemma prune_source_spec asp sls deg DG aasp s : length s = S asp -> (forall a, a ∈ aasp -> a <= asp -> s !! a = Some None) ->
  (forall x, cand asp sls aasp s x -> deg x = Ok (DG x)) ->
  exists L, prune_source asp sls deg aasp s = Ok L /\ forall x, x ∈ L <-> cand asp sls aasp s x /\ (0 < DG x)%Z.
Proof.
  intros Hl Hn Hdeg. unfold prune_source. set (g := fun a => if decide (a ∈ aasp) then default [] (sls !! a) else option_list (default None (s !! a))).
  rewrite (rmapM_inv_fmap _ g).
  2:{ intros a Ha%elem_of_seq. unfold g. destruct (lookup_lt_is_Some_2 s a) as [o Ho]; [lia|]. rewrite Ho. destruct (decide (a ∈ aasp)) as [Hin|]; [|done].
      rewrite (Hn a Hin) in Ho by lia. injection Ho as <-. done. }
  cbn [rbind]. assert (Hc : forall x, x ∈ cart (g <$> seq 0 (S asp)) <-> cand asp sls aasp s x).
  { intros x. rewrite elem_of_cart, Forall2_same_length_lookup, fmap_length, seq_length. unfold cand. split; intros [H1 H2]; (split; [done|]).
    - intros a y Hy. assert (a < S asp) as Ha by (rewrite <- H1; by eapply lookup_lt_Some). specialize (H2 a y (g a) Hy). rewrite list_lookup_fmap, lookup_seq_lt in H2 by done.
      specialize (H2 eq_refl). unfold g in H2. destruct (decide (a ∈ aasp)).
      + destruct (sls !! a) as [l|]; [by exists l|by apply elem_of_nil in H2].
      + destruct (s !! a) as [[z|]|]; simpl in H2; [|by apply elem_of_nil in H2..]. by apply elem_of_list_singleton in H2 as ->.
    - intros a y l Hy Hla. assert (a < S asp) as Ha by (rewrite <- H1; by eapply lookup_lt_Some). rewrite list_lookup_fmap, lookup_seq_lt in Hla by done. injection Hla as <-.
      specialize (H2 a y Hy). unfold g. destruct (decide (a ∈ aasp)).
      + destruct H2 as (l & -> & ?). done.
      + rewrite H2. simpl. by apply elem_of_list_singleton. }
  rewrite (rmapM_inv_fmap _ (fun x => (x, DG x))) by (intros x Hx; rewrite Hdeg by (by apply Hc); done). cbn [rbind].
  eexists. split; [done|]. intros x. rewrite elem_of_list_fmap. split.
  - intros ([x' k] & -> & [Hk Hx]%elem_of_list_filter). simpl in *. apply elem_of_list_fmap in Hx as (x0 & [= -> ->] & Hx). by rewrite <- Hc.
  - intros [Hx Hp]. exists (x, DG x). split; [done|]. apply elem_of_list_filter. split; [done|]. apply elem_of_list_fmap. exists x. split; [done|]. by apply Hc.
Qed.

Section Prune.
  Context (asp : nat) (sls : list (list name)) (deg : nl -> res Z) (nbs : nl -> res (list nl)) (wt : nl -> nl -> res Z)
    (U : list nl) (nb : nl -> list nl) (W : nl -> nl -> Z) (DG : nl -> Z) (sources : list (list (option name))) (aasp : list nat).
  Definition SRC (x : nl) : Prop := (exists s, s ∈ sources /\ cand asp sls aasp s x) /\ (0 < DG x)%Z.
  Context (Hsl : forall s, s ∈ sources -> length s = S asp /\ forall a, a ∈ aasp -> a <= asp -> s !! a = Some None)
    (Hdeg : forall x s, s ∈ sources -> cand asp sls aasp s x -> deg x = Ok (DG x))
    (HUsrc : forall x, SRC x -> x ∈ U)
    (HUlen : forall a, a ∈ U -> length a = S asp)
    (Hnbs : forall a, a ∈ U -> nbs a = Ok (nb a))
    (HUnb : forall a b, a ∈ U -> b ∈ nb a -> b ∈ U)
    (Hwt : forall a b, a ∈ U -> b ∈ nb a -> wt a b = Ok (W a b))
    (Hwts : forall s, SRC s -> wt s s = Ok (W s s))
    (Hpos : forall a b, a ∈ U -> b ∈ nb a -> (0 < W a b)%Z).
  Definition DIST (x : nl) (D : Z) : Prop := (exists s, SRC s /\ wk nb W s x D) /\ forall s D', SRC s -> wk nb W s x D' -> (D <= D')%Z.
  (** Links of the forest. *)
  Definition TIGHT (u x : nl) : Prop :=
    ((u = x /\ SRC u) \/ (x ∈ nb u /\ exists Du Dx, DIST u Du /\ DIST x Dx /\ Dx = (Du + W u x)%Z)) /\ W u x <> (-1)%Z.
  (** The least distance of the node-layers with the same selection. *)
  Definition LEAST (y : nl) (D : Z) : Prop := (exists x, select_aspects aasp x = y /\ DIST x D) /\ forall x D', select_aspects aasp x = y -> DIST x D' -> (D <= D')%Z.
  Lemma prune_spec : exists N, forall choose fuel, heap_choice choose -> N <= fuel -> exists nd f log,
    prune_gen asp sls deg nbs wt choose fuel sources aasp = Ok (nd, f) /\
    (forall y D, dget nd y = Some D <-> LEAST y D) /\
    hist asp (-1) true false (wops W log) f /\
    forall u x, (u, x) ∈ log <-> TIGHT u x /\ exists t D, DIST t D /\ LEAST (select_aspects aasp t) D /\ rtc TIGHT x t.
  Proof.
    destruct (MpxIter.rmapM_choice (prune_source asp sls deg aasp) (fun s L => forall x, x ∈ L <-> cand asp sls aasp s x /\ (0 < DG x)%Z) sources) as (ss & Ess & Hss).
    { intros s Hs. destruct (Hsl s Hs). by apply prune_source_spec; [..|intros x Hx; apply (Hdeg x s)]. }
    assert (Hsrc : forall x, x ∈ concat ss <-> SRC x).
    { intros x. unfold SRC. clear -Hss. induction Hss as [|s L l l' H1 H2 IH]; simpl.
      - split; [by intros ?%elem_of_nil|]. by intros ((s & ?%elem_of_nil & _) & _).
      - rewrite elem_of_app, IH, H1. split.
        + intros [[? ?]|[(s' & ? & ?) ?]]; (split; [|done]); [exists s; split; [left|done]|exists s'; split; [by right|done]].
        + intros [(s' & [->|Hs']%elem_of_cons & ?) ?]; [by left|]. right. split; [|done]. by exists s'. }
    destruct (exists_bound (fun p => W (p.1) (p.2)) (U ≫= fun a => (fun b => (a, b)) <$> nb a)) as (M & HM0 & HM).
    destruct (exists_bound (fun a => Z.of_nat (length (nb a))) U) as (K & HK0 & HK).
    destruct (dij_spec asp U (concat ss) nbs wt nb W) with (M := M) (K := Z.to_nat K) as (N & HN); try done.
    { intros s Hs. by apply HUsrc, Hsrc. }
    { intros s Hs. by apply Hwts, Hsrc. }
    { intros a b Ha Hb. apply (HM (a, b)). apply elem_of_list_bind. exists a. split; [|done]. apply elem_of_list_fmap. eauto. }
    { intros a Ha. specialize (HK a Ha). simpl in HK. lia. }
    exists (Nat.max N (S (length U))). intros choose fuel Hch Hfuel. destruct (HN choose fuel Hch ltac:(lia)) as (d & f & log & E & Hnd & Hd & Hh & Hlog & Hin & HU).
    assert (Hdist : forall x D, dget d x = Some D <-> DIST x D) by (intros x D; rewrite Hd; unfold DIST; by setoid_rewrite Hsrc).
    assert (Hlen : forall a b, (a, b) ∈ log -> length a = S asp /\ length b = S asp).
    { intros a b [[<- Hs%Hsrc%HUsrc]|(Hb & Da & Db & H1 & H2 & _)]%Hlog; [auto|]. split; apply HUlen, HU; eauto. }
    assert (Hel : forall x D, (x, D) ∈ d <-> dget d x = Some D) by (intros; by apply dget_elem_of).
    set (rank := fun x => drank d (default 0%Z (dget d x))).
    assert (HEL : forall u x, EL log W u x <-> TIGHT u x).
    { intros u x. unfold EL, TIGHT. rewrite Hlog, Hsrc. setoid_rewrite Hdist. done. }
    assert (Hrank : forall u x, EL log W u x -> u <> x -> rank u < rank x).
    { intros u x [[[? _]|(Hx & Du & Dx & H1 & H2 & H3)]%Hlog _] Hne; [done|]. unfold rank. rewrite H1, H2. simpl.
      apply (drank_lt d u); [done|]. assert (0 < W u x)%Z; [|lia]. apply Hpos; [|done]. apply HU. eauto. }
    assert (Hdlen : length d <= length U).
    { rewrite <- dkeys_length. apply submseteq_length, NoDup_submseteq; [done|]. intros x Hx. apply HU. by apply elem_of_dkeys. }
    set (nd := prune_nd aasp d).
    assert (Hleast : forall y D, dget nd y = Some D <-> LEAST y D).
    { intros y D. unfold nd. rewrite prune_nd_spec. unfold LEAST. setoid_rewrite Hel. setoid_rewrite Hdist. split; intros [(x & ? & ?) Hm]; (split; [by exists x|]); intros x' D' ? ?; by apply (Hm x'). }
    destruct (pruned asp f log W Hh Hlen rank Hrank (fun q => dget nd (select_aspects aasp (q.1)) = Some (q.2)) fuel d) as (nt & log' & E' & Hh' & Hl').
    { intros q Hq. unfold rank. pose proof (drank_le d (default 0%Z (dget d (q.1)))). lia. }
    exists nd, nt, log'. split; [|split; [done|split; [done|]]].
    - unfold prune_gen. rewrite Ess. cbn [rbind]. rewrite E. cbn [rbind fst snd]. fold nd. rewrite E'. done.
    - intros u x. rewrite Hl', HEL. split.
      + intros [HT ([t D] & Hq & HP & Hr)]. split; [done|]. exists t, D. simpl in *. split; [by apply Hdist, Hel|]. split; [by apply Hleast|].
        clear -Hr HEL. induction Hr as [|? ? ? H1 _ IH]; [constructor|]. econstructor; [by apply HEL|done].
      + intros [HT (t & D & HD & HLe & Hr)]. split; [done|]. exists (t, D). split; [by apply Hel, Hdist|]. split; [by apply Hleast|].
        simpl. clear -Hr HEL. induction Hr as [|? ? ? H1 _ IH]; [constructor|]. econstructor; [by apply HEL|done].
  Qed.
End Prune.
