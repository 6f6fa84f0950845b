(** * C75, C76: diagnostics of multiplex networks and shortest paths that ignore aspects *)
From Verif Require Import PropsNet PropsTrans PropsDiag DiagFacts DiagPrune PruneFacts Build NetIter TransFacts MpxRelabel MpxIter MpxEdges PropsMpx PropsMpxEdges.
Local Open Scope nat_scope.

(** ** Specification *)
(** [LK a b w]: there is a link from [a] to [b] of weight [w]; [S x]: [x] is a source. *)
Section Spec.
  Context (LK : nl -> nl -> Z -> Prop) (S : nl -> Prop) (aasp : list nat).
  Inductive lwalk : nl -> nl -> Z -> Prop :=
  | lwalk_here a : lwalk a a 0
  | lwalk_step a b c D w : lwalk a b D -> LK b c w -> lwalk a c (D + w).
  (** [D] is the least total weight of a walk from a source to [x]. *)
  Definition dist_to (x : nl) (D : Z) : Prop := (exists s, S s /\ lwalk s x D) /\ forall s D', S s -> lwalk s x D' -> (D <= D')%Z.
  (** A link on a shortest path. *)
  Definition tight (a b : nl) (w : Z) : Prop := LK a b w /\ exists Da Db, dist_to a Da /\ dist_to b Db /\ Db = (Da + w)%Z.
  (** [D] is the least distance of the node-layers [x] that give [y] when the coordinates
      in [aasp] are left out. *)
  Definition least (y : nl) (D : Z) : Prop :=
    (exists x, select_aspects aasp x = y /\ dist_to x D) /\ forall x D', select_aspects aasp x = y -> dist_to x D' -> (D <= D')%Z.
  (** [x] is on a shortest path to a node-layer that is nearest among those that differ
      from it only in the coordinates [aasp]. *)
  Definition leads (x : nl) : Prop := exists t D, dist_to t D /\ least (select_aspects aasp t) D /\ rtc (fun a b => exists w, tight a b w) x t.
End Spec.
(** [x] matches the source [s]. *)
Definition matches_source (asp : nat) (has : nat -> name -> Prop) (aasp : list nat) (s : list (option name)) (x : nl) : Prop :=
  length x = S asp /\ forall a y, x !! a = Some y -> (a ∈ aasp -> has a y) /\ (a ∉ aasp -> s !! a = Some (Some y)).
(** The sources are tuples with [None] in the coordinates [aasp]. *)
Definition sources_ok (asp : nat) (aasp : list nat) (sources : list (list (option name))) : Prop :=
  forall s, s ∈ sources -> length s = S asp /\ forall a, a ∈ aasp -> a <= asp -> s !! a = Some None.

(** [select_aspects] forgets exactly the coordinates in [aasp]. *)
Lemma select_gen (aasp : list nat) (a b : nl) (k : nat) : length a = length b ->
  (filter (fun q : nat * name => q.1 ∉ aasp) (imap (fun i x => (k + i, x)) a)).*2 = (filter (fun q : nat * name => q.1 ∉ aasp) (imap (fun i x => (k + i, x)) b)).*2 <->
  forall i, k + i ∉ aasp -> a !! i = b !! i.
Proof.
  revert b k. induction a as [|x a IH]; intros [|y b] k Hl; try done. injection Hl as Hl. cbn [imap].
  assert (forall l : nl, imap ((fun i x => (k + i, x)) ∘ S) l = imap (fun i x => (S k + i, x)) l) as Hs by (intros l; apply imap_ext; intros i z _; simpl; f_equal; lia).
  rewrite !Hs, !filter_cons. cbn [fst]. rewrite Nat.add_0_r. specialize (IH b (S k) Hl).
  assert (Hsucc : (forall i, S k + i ∉ aasp -> a !! i = b !! i) <-> forall i, k + S i ∉ aasp -> a !! i = b !! i) by (split; intros H i; specialize (H i); by rewrite Nat.add_succ_r in *).
  destruct (decide (k ∉ aasp)) as [Hk|Hk].
  - rewrite !fmap_cons. cbn [snd]. split.
    + intros [= -> H]. rewrite IH, Hsucc in H. intros [|i] Hi; [done|]. by apply H.
    + intros H. f_equal; [specialize (H 0); rewrite Nat.add_0_r in H; specialize (H Hk); by injection H|]. apply IH, Hsucc. intros i Hi. by apply (H (S i)).
  - rewrite IH, Hsucc. split; [|intros H i; by apply (H (S i))]. intros H [|i] Hi; [by rewrite Nat.add_0_r in Hi|by apply H].
Qed.
Theorem C76_selection (aasp : list nat) (a b : nl) : length a = length b -> select_aspects aasp a = select_aspects aasp b <-> forall i, i ∉ aasp -> a !! i = b !! i.
Proof. intros Hl. apply (select_gen aasp a b 0 Hl). Qed.

Section Transfer.
  Context (LK : nl -> nl -> Z -> Prop) (nb : nl -> list nl) (W : nl -> nl -> Z) (Ssrc : nl -> Prop) (aasp : list nat).
  Context (HLK : forall a b w, LK a b w <-> b ∈ nb a /\ w = W a b) (HpW : forall a b, b ∈ nb a -> (0 < W a b)%Z).
  Lemma lwalk_wk a x D : lwalk LK a x D <-> wk nb W a x D.
  Proof.
    split.
    - induction 1 as [|a b c D w _ IH Hc]; [constructor|]. apply HLK in Hc as [Hc ->]. by constructor.
    - induction 1 as [|a b c D _ IH Hc]; [constructor|]. econstructor; [done|]. by apply HLK.
  Qed.
End Transfer.
Section Generic.
  Context (asp : nat) (sls : list (list name)) (deg : nl -> res Z) (nbs : nl -> res (list nl)) (wt : nl -> nl -> res Z)
    (U : list nl) (nb : nl -> list nl) (W : nl -> nl -> Z) (DG : nl -> Z) (sources : list (list (option name))) (aasp : list nat).
  Context (LK : nl -> nl -> Z -> Prop) (Ssrc : nl -> Prop).
  Context (Hsl : sources_ok asp aasp sources)
    (Hdeg : forall x s, s ∈ sources -> cand asp sls aasp s x -> deg x = Ok (DG x))
    (HS : forall x, Ssrc x <-> SRC asp sls DG sources aasp x)
    (HUsrc : forall x, Ssrc x -> x ∈ U)
    (HUlen : forall a, a ∈ U -> length a = S asp)
    (Hnbs : forall a, a ∈ U -> nbs a = Ok (nb a))
    (HUnb : forall a b, a ∈ U -> b ∈ nb a -> b ∈ U)
    (Hwt : forall a b, a ∈ U -> b ∈ nb a -> wt a b = Ok (W a b))
    (Hwts : forall s, Ssrc s -> wt s s = Ok (W s s))
    (HLK : forall a b w, LK a b w <-> a ∈ U /\ b ∈ nb a /\ w = W a b)
    (Hpos : forall a b w, LK a b w -> (0 < w)%Z).
  Lemma dist_DIST x D : dist_to LK Ssrc x D <-> DIST asp sls nb W DG sources aasp x D.
  Proof.
    assert (forall s x D, Ssrc s -> lwalk LK s x D <-> wk nb W s x D /\ x ∈ U) as Hw.
    { intros s y E Hs. split.
      - induction 1 as [|a b c E w _ IH Hc]; [split; [constructor|by apply HUsrc]|]. apply HLK in Hc as (Hb & Hc & ->). destruct (IH Hs). split; [by constructor|by apply (HUnb b)].
      - intros [H _]. revert Hs. induction H as [|a b c E H IH Hc]; intros Hs; [constructor|]. econstructor; [by apply IH|]. apply HLK. split; [|done].
        assert (forall a b E, wk nb W a b E -> a ∈ U -> b ∈ U) as Hin by (induction 1; eauto). eapply Hin; [exact H|by apply HUsrc]. }
    unfold dist_to, DIST. split.
    - intros [(s & Hs & H1) H2]. apply (Hw s x D Hs) in H1 as [H1 Hx]. split; [exists s; split; [by apply HS|done]|].
      intros s' D' Hs' Hw'. apply HS in Hs'. apply (H2 s' D' Hs'). by apply Hw.
    - intros [(s & Hs & H1) H2]. apply HS in Hs. assert (x ∈ U) as Hx.
      { assert (forall a b E, wk nb W a b E -> a ∈ U -> b ∈ U) as Hin by (induction 1; eauto). eapply Hin; [exact H1|by apply HUsrc]. }
      split; [exists s; split; [done|by apply Hw]|]. intros s' D' Hs' Hw'%Hw; [|done]. destruct Hw'. apply (H2 s'); [by apply HS|done].
  Qed.
  Lemma dist_U x D : dist_to LK Ssrc x D -> x ∈ U.
  Proof.
    intros [(s & Hs & H) _]. revert Hs. induction H as [|a b c E w _ IH Hc]; intros Hs; [by apply HUsrc|]. apply HLK in Hc as (Hb & Hc & _). by apply (HUnb b).
  Qed.
  Lemma generic_prune : exists N, forall choose fuel, heap_choice choose -> N <= fuel -> exists nd f,
    prune_gen asp sls deg nbs wt choose fuel sources aasp = Ok (nd, f) /\
    (forall y D, dget nd y = Some D <-> least LK Ssrc aasp y D) /\
    reachable f /\ aspects f = asp /\ directed f = true /\ noEdge f = (-1)%Z /\
    (forall a b w, a <> b -> linked f a b /\ reads f a b w <-> tight LK Ssrc a b w /\ leads LK Ssrc aasp b) /\
    (forall a w, linked f a a /\ reads f a a w <-> Ssrc a /\ leads LK Ssrc aasp a /\ w = W a a /\ w <> (-1)%Z).
  Proof.
    destruct (prune_spec asp sls deg nbs wt U nb W DG sources aasp) as (N & HN); try done.
    { intros x Hx. by apply HUsrc, HS. }
    { intros s Hs. by apply Hwts, HS. }
    { intros a b Ha Hb. apply (Hpos a b). apply HLK. done. }
    exists N. intros choose fuel Hch Hfuel. destruct (HN choose fuel Hch Hfuel) as (nd & f & log & E & Hnd & Hh & Hlog).
    exists nd, f. split; [done|]. pose proof dist_DIST as HD.
    assert (HL : forall y D, LEAST asp sls nb W DG sources aasp y D <-> least LK Ssrc aasp y D) by (intros y D; unfold LEAST, least; by setoid_rewrite HD).
    split; [intros y D; by rewrite Hnd, HL|].
    assert (HT : forall u x, TIGHT asp sls nb W DG sources aasp u x <-> (u = x /\ Ssrc u /\ W u x <> (-1)%Z) \/ exists w, tight LK Ssrc u x w).
    { intros u x. unfold TIGHT, tight. setoid_rewrite HLK. setoid_rewrite HD. rewrite <- HS. split.
      - intros [[[-> ?]|(Hx & Du & Dx & H1 & H2 & H3)] HW]; [by left|]. right. exists (W u x). split; [|eauto]. split; [|done]. apply HD in H1. by apply dist_U in H1.
      - intros [(-> & ? & ?)|(w & (Hu & Hx & ->) & Du & Dx & H1 & H2 & H3)]; [auto|]. split; [right; eauto 8|]. assert (0 < W u x)%Z; [|lia]. apply (Hpos u x). by apply HLK. }
    assert (Hrtc : forall x t, rtc (TIGHT asp sls nb W DG sources aasp) x t <-> rtc (fun a b => exists w, tight LK Ssrc a b w) x t).
    { intros x t. split; induction 1 as [|x y z H _ IH]; try constructor.
      - apply HT in H as [(-> & _)|H]; [done|]. by econstructor.
      - econstructor; [|done]. apply HT. by right. }
    assert (HLe : forall x, (exists t D, DIST asp sls nb W DG sources aasp t D /\ LEAST asp sls nb W DG sources aasp (select_aspects aasp t) D /\ rtc (TIGHT asp sls nb W DG sources aasp) x t) <-> leads LK Ssrc aasp x).
    { intros x. unfold leads. setoid_rewrite Hrtc. setoid_rewrite HL. setoid_rewrite HD. done. }
    assert (Hlog' : forall u x, (u, x) ∈ log <-> ((u = x /\ Ssrc u /\ W u x <> (-1)%Z) \/ exists w, tight LK Ssrc u x w) /\ leads LK Ssrc aasp x).
    { intros u x. by rewrite Hlog, HT, HLe. }
    assert (Hlen : forall a b, (a, b) ∈ log -> length a = S asp /\ length b = S asp).
    { intros a b [[(-> & Hs & _)|(w & _ & Da & Db & H1 & H2 & _)] _]%Hlog'; [split; by apply HUlen, HUsrc|]. split; apply HUlen; by eapply dist_U. }
    destruct (hist_inv _ _ _ _ _ _ Hh) as [_ _ Ha Hn Hd _]. assert (reachable f) as Hr by by repeat eexists. pose proof (reachable_good _ Hr) as Hg.
    split; [done|]. split; [done|]. split; [done|]. split; [done|].
    pose proof (log_links _ _ _ _ _ _ Hh Hlen) as Hrd.
    assert (Hlr : forall a b w, linked f a b /\ reads f a b w <-> (a, b) ∈ log /\ w = W a b /\ w <> (-1)%Z).
    { intros a b w. split.
      - intros [Hlk Hrw]. pose proof Hlk as (La & Lb & _). apply reads_rd in Hrw; [|done..]. apply linked_rd in Hlk; [|done]. rewrite Hrd, Hn in *.
        destruct (decide ((a, b) ∈ log)); [|done]. split; [done|]. split; congruence.
      - intros (Hab & -> & Hw). destruct (Hlen a b Hab). split; [apply linked_rd; [done|]; rewrite Hrd, Hn; by rewrite decide_True|].
        apply reads_rd; [congruence..|]. rewrite Hrd. by rewrite decide_True. }
    split.
    - intros a b w Hab. rewrite Hlr, Hlog'. split.
      + intros ([[(? & _)|(w' & Ht)] Hle] & -> & _); [done|]. split; [|done]. pose proof Ht as [(_ & _ & ->)%HLK _]. done.
      + intros [Ht Hle]. pose proof Ht as [Hk _]. pose proof Hk as (_ & _ & ->)%HLK. split; [split; [right; by eexists|done]|]. split; [done|]. specialize (Hpos _ _ _ Hk). lia.
    - intros a w. rewrite Hlr, Hlog'. split.
      + intros ([[(_ & Hs & Hw)|(w' & Hk & Da & Db & H1 & H2 & H3)] Hle] & -> & _); [done|]. exfalso. specialize (Hpos _ _ _ Hk).
        destruct H1 as [(s1 & Hs1 & Hw1) Hm1], H2 as [(s2 & Hs2 & Hw2) Hm2]. pose proof (Hm1 s2 Db Hs2 Hw2). pose proof (Hm2 s1 Da Hs1 Hw1). lia.
      + intros (Hs & Hle & -> & Hw). split; [|done]. split; [by left|done].
  Qed.
End Generic.

(** ** C76, networks *)
(** The links of [n] with their weights. *)
Definition nlk (n : mlnet) (a b : nl) (w : Z) : Prop := linked n a b /\ reads n a b w.
(** The sources the call expands to: the matching node-layers with a positive degree. *)
Definition nsource (n : mlnet) (sources : list (list (option name))) (aasp : list nat) (x : nl) : Prop :=
  (exists s, s ∈ sources /\ matches_source (aspects n) (has_elem n) aasp s x) /\ (0 < degree n x None)%Z.

Lemma has_elem_lookup n a y : has_elem n a y <-> exists l, slices n !! a = Some l /\ y ∈ l.
Proof. rewrite has_elem_sl. done. Qed.
Lemma cand_matches asp (has : nat -> name -> Prop) sls aasp s x : (forall a y, has a y <-> exists l, sls !! a = Some l /\ y ∈ l) ->
  matches_source asp has aasp s x <-> cand asp sls aasp s x.
Proof.
  intros Hh. unfold matches_source, cand. split; intros [Hl H]; (split; [done|]); intros a y Ha; specialize (H a y Ha).
  - destruct (decide (a ∈ aasp)) as [Hi|Hi]; [by apply Hh, H|by apply H].
  - destruct (decide (a ∈ aasp)) as [Hi|Hi]; split; try done. intros _. by apply Hh.
Qed.
Theorem C76_prune n sources aasp : reachable n -> 1 <= aspects n -> sources_ok (aspects n) aasp sources ->
  (forall a b w, nlk n a b w -> (0 < w)%Z) ->
  exists N, forall choose fuel, heap_choice choose -> N <= fuel -> exists nd f,
    dijkstra_prune n choose fuel sources aasp = Ok (nd, f) /\
    (forall y D, dget nd y = Some D <-> least (nlk n) (nsource n sources aasp) aasp y D) /\
    reachable f /\ aspects f = aspects n /\ directed f = true /\ noEdge f = (-1)%Z /\
    (forall a b w, a <> b -> nlk f a b w <-> tight (nlk n) (nsource n sources aasp) a b w /\ leads (nlk n) (nsource n sources aasp) aasp b) /\
    (forall a w, nlk f a a w <-> nsource n sources aasp a /\ leads (nlk n) (nsource n sources aasp) aasp a /\ reads n a a w /\ w <> (-1)%Z).
Proof.
  intros Hr Has Hok Hpos. pose proof (reachable_good _ Hr) as Hg. pose proof Hg as [HS HL].
  set (DG := fun x => degree n x None).
  assert (Hc : forall s x, matches_source (aspects n) (has_elem n) aasp s x <-> cand (aspects n) (slices n) aasp s x) by (intros; apply cand_matches, has_elem_lookup).
  assert (HS' : forall x, nsource n sources aasp x <-> SRC (aspects n) (slices n) DG sources aasp x) by (intros x; unfold nsource, SRC; by setoid_rewrite Hc).
  destruct (MpxIter.rmapM_choice (prune_source (aspects n) (slices n) (fun a => Ok (degree n a None)) aasp)
    (fun s L => forall x, x ∈ L <-> cand (aspects n) (slices n) aasp s x /\ (0 < DG x)%Z) sources) as (ss & _ & Hss).
  { intros s Hs. destruct (Hok s Hs). by apply prune_source_spec. }
  assert (Hsrc : forall x, nsource n sources aasp x -> x ∈ concat ss).
  { intros x ((s & Hs & Hx%Hc) & Hd). clear -Hss Hs Hx Hd. induction Hss as [|s' L l l' H1 H2 IH]; [by apply elem_of_nil in Hs|]. simpl. apply elem_of_app.
    apply elem_of_cons in Hs as [->|Hs]; [left; by apply H1|right; by apply IH]. }
  set (U := filter (fun x => length x = S (aspects n)) (concat ss) ++ iter_node_layers n).
  assert (HUlen : forall a, a ∈ U -> length a = S (aspects n)) by (intros a [[? _]%elem_of_list_filter|?]%elem_of_app; [done|by apply present_len]).
  set (nb := fun a => iter_out n a None).
  assert (Hnb : forall a b, b ∈ nb a <-> linked n a b) by (intros a b; unfold nb; rewrite elem_of_iter_out, linked_lnk; done).
  assert (HlU : forall a b, linked n a b -> a ∈ U /\ b ∈ U).
  { intros a b Hb. apply linked_lnk in Hb as [w Hw]; [|done]. destruct (wfL_present _ HL _ _ _ Hw). split; apply elem_of_app; by right. }
  assert (HLK : forall a b w, nlk n a b w <-> a ∈ U /\ b ∈ nb a /\ w = weight n a b).
  { intros a b w. rewrite Hnb. unfold nlk. split.
    - intros [Hk Hw]. pose proof Hk as (? & ? & _). apply reads_rd in Hw; [|done..]. rewrite weight_rd by congruence. by destruct (HlU _ _ Hk).
    - intros (_ & Hk & ->). split; [done|]. destruct Hk as (? & ? & _). by apply reads_weight. }
  destruct (generic_prune (aspects n) (slices n) (fun a => Ok (degree n a None)) (fun a => Ok (iter_out n a None)) (fun a b => Ok (weight n a b))
    U nb (weight n) DG sources aasp (nlk n) (nsource n sources aasp)) as (N & HN); try done.
  { intros x Hx. apply elem_of_app. left. apply elem_of_list_filter. split; [by destruct Hx as ((s & _ & ? & _) & _)|by apply Hsrc]. }
  { intros a b _ Hb%Hnb. by apply (HlU a b). }
  exists N. intros choose fuel Hch Hf. destruct (HN choose fuel Hch Hf) as (nd & f & E & H1 & H2 & H3 & H4 & H5 & H6 & H7). exists nd, f.
  split; [exact E|]. split; [done|]. split; [done|]. split; [done|]. split; [done|]. split; [done|]. split; [done|].
  intros a w. unfold nlk at 1. rewrite H7. split.
  - intros (Hs & Hl & -> & Hw). split; [done|]. split; [done|]. split; [|done]. destruct Hs as ((s & _ & ? & _) & _). by apply reads_weight.
  - intros (Hs & Hl & Hw & Hw'). split; [done|]. split; [done|]. split; [|done]. destruct Hs as ((s & _ & ? & _) & _). apply reads_rd in Hw; [|done..]. rewrite weight_rd by congruence. done.
Qed.
(** In an undirected network a positive degree means: there is a link. *)
Theorem C76_undirected_degree n x : reachable n -> directed n = false -> (0 < degree n x None)%Z <-> exists b, linked n x b.
Proof.
  intros (asp & noe & dir & fi & h & Hh) Hd. pose proof (hist_good _ _ _ _ _ _ Hh) as Hg. destruct (hist_inv _ _ _ _ _ _ Hh) as [_ _ _ _ Hdd _].
  destruct (C08_total_degree_exact _ _ _ _ _ _ Hh x None I) as (L & HL & ->); [left; congruence|].
  assert (forall b, linked n x b <-> linked n b x) as Hsym.
  { intros b. rewrite !linked_lnk by done. by rewrite (wfL_sym n (proj2 Hg) Hd x b). }
  split.
  - destruct L as [|b L]; [simpl; lia|]. intros _. exists b. destruct (proj1 (proj2 HL b) ltac:(left)) as [[?|?] _]; [done|by apply Hsym].
  - intros (b & Hb). assert (b ∈ L) as Hin by (apply HL; split; [by left|done]). destruct L; [by apply elem_of_nil in Hin|simpl; lia].
Qed.
(** A source that names something in an ignored coordinate. *)
Theorem C76_source_rejected n choose fuel sources aasp : (forall s, s ∈ sources -> length s = S (aspects n)) ->
  (exists s a y, s ∈ sources /\ a ∈ aasp /\ a <= aspects n /\ s !! a = Some (Some y)) ->
  dijkstra_prune n choose fuel sources aasp = Err AssertionError.
Proof.
  intros Hlen (s & a & y & Hs & Ha & Hle & Hy). unfold dijkstra_prune, prune_gen.
  assert (Hsr : forall t, t ∈ sources -> (exists L, prune_source (aspects n) (slices n) (fun a => Ok (degree n a None)) aasp t = Ok L) \/
     prune_source (aspects n) (slices n) (fun a => Ok (degree n a None)) aasp t = Err AssertionError).
  { intros t Ht. specialize (Hlen t Ht). unfold prune_source.
    assert (forall l, (forall a, a ∈ l -> a <= aspects n) -> let f := (fun a => match t !! a with None => Err IndexError | Some o =>
        if decide (a ∈ aasp) then match o with None => Ok (default [] (slices n !! a)) | Some _ => Err AssertionError end else Ok (option_list o) end) in
      (exists v, rmapM f l = Ok v) \/ rmapM f l = Err AssertionError) as Hgen.
    { intros l. induction l as [|k l IH]; intros Hk f; [left; by eexists|]. cbn [rmapM]. specialize (IH ltac:(intros; apply Hk; by right)). fold f in IH.
      destruct (lookup_lt_is_Some_2 t k) as [o Ho]; [specialize (Hk k ltac:(left)); lia|].
      assert ((exists v, f k = Ok v) \/ f k = Err AssertionError) as [[v Ev]|Ev]; [|rewrite Ev; cbn [rbind]..].
      { unfold f. rewrite Ho. destruct (decide (k ∈ aasp)); [destruct o|]; eauto. }
      - destruct IH as [[v' IH]|IH]; rewrite IH; cbn [rbind]; eauto.
      - by right. }
    destruct (Hgen (seq 0 (S (aspects n)))) as [[v Hv]|Hv]; [intros k Hk%elem_of_seq; lia|rewrite Hv; cbn [rbind]..]; [left|by right].
    rewrite (rmapM_inv_fmap _ (fun a => (a, degree n a None))) by done. cbn [rbind]. by eexists. }
  assert (Hbad : prune_source (aspects n) (slices n) (fun a => Ok (degree n a None)) aasp s = Err AssertionError).
  { destruct (Hsr s Hs) as [[L HL]|]; [|done]. exfalso. unfold prune_source in HL.
    destruct (rmapM _ (seq 0 (S (aspects n)))) as [v|] eqn:E; [|done].
    assert (a ∈ seq 0 (S (aspects n))) as Hin by (apply elem_of_seq; lia). clear HL. revert v E Hin. generalize (seq 0 (S (aspects n))). intros l. induction l as [|k l IH]; intros v E Hin; [by apply elem_of_nil in Hin|].
    cbn [rmapM] in E. apply elem_of_cons in Hin as [->|Hin].
    - rewrite Hy, decide_True in E by done. done.
    - destruct (match s !! k with None => Err IndexError | Some o => _ end); [|done]. cbn [rbind] in E. destruct (rmapM _ l) as [v'|] eqn:E'; [|done]. by eapply IH. }
  assert (rmapM (prune_source (aspects n) (slices n) (fun a => Ok (degree n a None)) aasp) sources = Err AssertionError) as ->; [|done].
  clear Hlen. induction sources as [|t l IH]; [by apply elem_of_nil in Hs|]. cbn [rmapM]. destruct (Hsr t ltac:(left)) as [[L HL]|HL]; rewrite HL; cbn [rbind]; [|done].
  apply elem_of_cons in Hs as [->|Hs]; [congruence|]. rewrite IH; [done|done|]. intros; apply Hsr. by right.
Qed.

(** ** Multiplex networks *)
Definition mlk (p : mpx) (a b : nl) (w : Z) : Prop := mlink p a b /\ mreads p a b w.
Section Mpx.
  Context (cs : list coupling) (dir fi : bool) (h : list call) (p : mpx) (Hh : mhist cs dir 0 fi h p) (Hc : faithful cs fi p) (Hl : loopless p).
  Lemma mlk_nb a b w : mlk p a b w <-> (a ∈ cart (mslices p) /\ mexists p a) /\ b ∈ nbf p DOut a /\ w = MR p a b.
  Proof using Hh Hc Hl.
    unfold mlk, mlink. split.
    - intros [(Ha & Hb & Hk) Hw]. assert (a ∈ cart (mslices p)) as Hca by (by eapply ex_cart). split; [done|]. split.
      + by apply (elem_of_nbf cs dir fi h p Hh Hc Hl DOut a b Hca).
      + pose proof (MR_reads cs dir fi h p Hh a b Ha Hb Hk) as Hm. rewrite mreads_pair in Hw, Hm by (by eapply ex_len). congruence.
    - intros ([Hca Ha] & Hb & ->). apply (elem_of_nbf cs dir fi h p Hh Hc Hl DOut a b Hca) in Hb as (_ & Hb & Hk). split; [done|]. by apply (MR_reads cs dir fi h p Hh).
  Qed.
  Lemma pget_self a : mexists p a -> pget_pair p a a = Ok 0%Z /\ MR p a a = 0%Z.
  Proof using Hh.
    intros Ha. assert (pget_pair p a a = Ok 0%Z) as E.
    { rewrite pget_pair_none; [by rewrite (pi_noe _ _ _ _ _ _ (mhist_inv _ _ _ _ _ _ Hh))|done|]. intros d (_ & Hd & Hk'). destruct (proj1 (Hk' d)); done. }
    split; [done|]. unfold MR. by rewrite E.
  Qed.
  Lemma pget_MR a b : mexists p a -> b ∈ nbf p DOut a -> pget_pair p a b = Ok (MR p a b).
  Proof using Hh Hc Hl.
    intros Ha Hb. apply (elem_of_nbf cs dir fi h p Hh Hc Hl DOut a b) in Hb as (_ & Hb & (v & Hv & _)); [|by eapply ex_cart].
    rewrite mreads_pair in Hv by (by eapply ex_len). unfold MR. by rewrite Hv.
  Qed.
  Lemma nls_all : exists L, miter_node_layers p = Ok L /\ forall a, a ∈ L <-> mexists p a.
  Proof using Hh.
    destruct (miter_node_layers_ok p (pi_wf _ _ _ _ _ _ (mhist_inv _ _ _ _ _ _ Hh))) as (L & HL & _). exists L. split; [done|]. intros a. unfold mexists. split; [eauto|]. intros (L' & HL' & ?). congruence.
  Qed.
End Mpx.

(** ** C75 *)
Theorem C75_dijkstra cs dir fi h p sources : mhist cs dir 0 fi h p -> faithful cs fi p -> loopless p ->
  (forall s, s ∈ sources -> mexists p s) -> (forall a b w, mlk p a b w -> (0 < w)%Z) ->
  exists N, forall choose fuel, heap_choice choose -> N <= fuel -> exists d f,
    mdijkstra p choose fuel sources = Ok (d, f) /\
    (forall x D, dget d x = Some D <-> dist_to (mlk p) (fun s => s ∈ sources) x D) /\
    reachable f /\ aspects f = maspects p /\ directed f = true /\ noEdge f = (-1)%Z /\
    (forall a, a ∈ iter_node_layers f <-> exists D, dget d a = Some D) /\
    (forall a b w, a <> b -> nlk f a b w <-> tight (mlk p) (fun s => s ∈ sources) a b w) /\
    (forall a w, nlk f a a w <-> a ∈ sources /\ w = 0%Z).
Proof.
  intros Hh Hc Hl Hsrc Hpos. destruct (nls_all _ _ _ _ _ Hh) as (U & _ & HU). pose proof (mlk_nb _ _ _ _ _ Hh Hc Hl) as HLK.
  pose proof (pi_wf _ _ _ _ _ _ (mhist_inv _ _ _ _ _ _ Hh)) as Hp.
  assert (Hcart : forall a, mexists p a -> a ∈ cart (mslices p)) by (intros a Ha; by eapply ex_cart).
  assert (Hlen : forall a, mexists p a -> length a = S (maspects p)) by (intros a Ha; by eapply ex_len).
  assert (HLK' : forall a b w, mlk p a b w <-> mexists p a /\ b ∈ nbf p DOut a /\ w = MR p a b) by (intros a b w; rewrite HLK; naive_solver).
  assert (HUnb : forall a b, mexists p a -> b ∈ nbf p DOut a -> mexists p b).
  { intros a b Ha Hb. apply (elem_of_nbf cs dir fi h p Hh Hc Hl DOut a b) in Hb; [tauto|auto]. }
  destruct (exists_bound (fun q => MR p (q.1) (q.2)) (U ≫= fun a => (fun b => (a, b)) <$> nbf p DOut a)) as (M & HM0 & HM).
  destruct (exists_bound (fun a => Z.of_nat (length (nbf p DOut a))) U) as (K & HK0 & HK).
  destruct (dij_spec (maspects p) U sources (fun a => mp_iter p DOut a None) (pget_pair p) (nbf p DOut) (MR p)) with (M := M) (K := Z.to_nat K) as (N & HN); try done.
  { intros s Hs. by apply HU, Hsrc. }
  { intros a Ha%HU. by apply Hlen. }
  { intros a Ha%HU. apply (nbf_ok cs dir fi h p Hh Hc Hl). auto. }
  { intros a b Ha%HU Hb. apply HU. eauto. }
  { intros a b Ha%HU Hb. by apply (pget_MR cs dir fi h p Hh Hc Hl). }
  { intros s Hs%Hsrc. destruct (pget_self _ _ _ _ _ Hh s Hs) as [-> ->]. done. }
  { intros a b Ha%HU Hb. apply (Hpos a b). by apply HLK'. }
  { intros a b Ha Hb. apply (HM (a, b)). apply elem_of_list_bind. exists a. split; [|done]. apply elem_of_list_fmap. eauto. }
  { intros a Ha. specialize (HK a Ha). simpl in HK. lia. }
  exists N. intros choose fuel Hch Hfuel. destruct (HN choose fuel Hch Hfuel) as (d & f & log & E & _ & Hd & Hhf & Hlog & Hin & HUd). exists d, f. split; [exact E|].
  assert (Hw1 : forall a x D, lwalk (mlk p) a x D -> wk (nbf p DOut) (MR p) a x D).
  { intros a x D. induction 1 as [|a b c D w _ IH Hbc]; [constructor|]. apply HLK' in Hbc as (_ & Hbc & ->). by constructor. }
  assert (Hw2 : forall a x D, wk (nbf p DOut) (MR p) a x D -> mexists p a -> lwalk (mlk p) a x D /\ mexists p x).
  { intros a x D. induction 1 as [|a b c D _ IH Hbc]; intros Ha; [split; [constructor|done]|]. destruct (IH Ha) as [IH1 IH2].
    split; [|by eapply HUnb]. econstructor; [done|]. by apply HLK'. }
  assert (Hdist : forall x D, dget d x = Some D <-> dist_to (mlk p) (fun s => s ∈ sources) x D).
  { intros x D. rewrite Hd. unfold dist_to. split; intros [(s & Hs & H1) H2]; (split; [exists s; split; [done|]|]).
    - apply Hw2; auto.
    - intros s' D' Hs' Hw'. apply (H2 s' D' Hs'). auto.
    - auto.
    - intros s' D' Hs' Hw'. apply (H2 s' D' Hs'). apply Hw2; auto. }
  destruct (hist_inv _ _ _ _ _ _ Hhf) as [_ _ Haf Hnf Hdf _]. assert (reachable f) as Hrf by by repeat eexists. pose proof (reachable_good _ Hrf) as Hgf.
  split; [done|]. split; [done|]. split; [done|]. split; [done|]. split; [done|].
  assert (Hll : forall a b, (a, b) ∈ log -> length a = S (maspects p) /\ length b = S (maspects p)).
  { intros a b [[-> Hs%Hsrc]|(_ & Da & Db & H1 & H2 & _)]%Hlog; [by auto|]. split; apply Hlen, HU, HUd; eauto. }
  pose proof (log_links _ _ _ _ _ _ Hhf Hll) as Hrd.
  assert (Hlr : forall a b w, nlk f a b w <-> (a, b) ∈ log /\ w = MR p a b /\ w <> (-1)%Z).
  { intros a b w. split.
    - intros [Hlk Hrw]. pose proof Hlk as (La & Lb & _). apply reads_rd in Hrw; [|done..]. apply linked_rd in Hlk; [|done]. rewrite Hrd, Hnf in *.
      destruct (decide ((a, b) ∈ log)); [|done]. split; [done|]. split; congruence.
    - intros (Hab & -> & Hw). destruct (Hll a b Hab). split; [apply linked_rd; [done|]; rewrite Hrd, Hnf; by rewrite decide_True|].
      apply reads_rd; [congruence..|]. rewrite Hrd. by rewrite decide_True. }
  assert (Hs0 : forall a, a ∈ sources -> exists D, dget d a = Some D).
  { intros a Ha. exists 0%Z. apply Hdist. split; [exists a; split; [done|constructor]|]. intros s D' Hs Hw.
    clear -Hw Hpos. induction Hw as [|? ? ? ? ? _ ? H]; [lia|]. apply Hpos in H. lia. }
  split; [|split].
  - intros a. rewrite (log_present _ _ _ _ _ _ Hhf Hll). split.
    + intros (b & [Hb|Hb]); apply Hlog in Hb as [[-> Hb]|(_ & Da & Db & H1 & H2 & _)]; eauto.
    + intros [D HD]. destruct (Hin a) as [s Hs]; [rewrite HD; eauto|]. exists s. by right.
  - intros a b w Hab. rewrite Hlr, Hlog. unfold tight. setoid_rewrite <- Hdist. rewrite HLK'. split.
    + intros ([[? _]|(Hb & Da & Db & H1 & H2 & H3)] & -> & _); [done|]. split; [|eauto 6]. split; [|done]. apply HU, HUd. eauto.
    + intros ((Ha & Hb & ->) & Da & Db & H1 & H2 & H3). split; [right; eauto 8|]. split; [done|]. assert (0 < MR p a b)%Z; [|lia]. apply (Hpos a b). by apply HLK'.
  - intros a w. rewrite Hlr, Hlog. split.
    + intros ([[_ Hs]|(Hb & Da & Db & H1 & H2 & H3)] & -> & _).
      * split; [done|]. by apply (pget_self _ _ _ _ _ Hh), Hsrc.
      * exfalso. assert (0 < MR p a a)%Z; [|rewrite H1 in H2; injection H2 as ->; lia]. apply (Hpos a a). apply HLK'. split; [apply HU, HUd; eauto|done].
    + intros [Hs ->]. destruct (pget_self _ _ _ _ _ Hh a (Hsrc a Hs)) as [_ ->]. split; [by left|done].
Qed.
(** [multiplex_degs]: one distribution per layer; it counts the nodes of the layer by the
    number of nodes they are linked to within the layer. *)
Definition layer_linked (p : mpx) (l : layer) (x y : name) : Prop := exists w, agetitem p l [x; y] = Ok w /\ w <> 0%Z.
Definition layer_node (p : mpx) (l : layer) (x : name) : Prop := exists m, pA p l = Some m /\ has_elem m 0 x.
Lemma layers_fold {V} (f : mlnet -> res V) p d0 ls : (forall l, l ∈ ls -> exists m v, pA p l = Some m /\ f m = Ok v) ->
  exists d, rfold (fun d l => match pA p l with Some m => let? q := f m in Ok (dset d l q) | None => Err KeyError end) d0 ls = Ok d /\
    forall l v, dget d l = Some v <-> (l ∈ ls /\ exists m, pA p l = Some m /\ f m = Ok v) \/ (l ∉ ls /\ dget d0 l = Some v).
Proof.
  revert d0. induction ls as [|k ls IH]; intros d0 H.
  - exists d0. split; [done|]. intros l v. split; [intros; right; split; [apply not_elem_of_nil|done]|]. intros [[?%elem_of_nil _]|[_ ?]]; done.
  - destruct (H k ltac:(left)) as (m & v0 & Hm & Hv). destruct (IH (dset d0 k v0)) as (d & E & Hd); [intros; apply H; by right|].
    exists d. split; [cbn [rfold]; rewrite Hm, Hv; done|]. intros l v. rewrite Hd, dget_dset, !elem_of_cons.
    destruct (decide (l = k)) as [->|Hne].
    + destruct (decide (k ∈ ls)); [naive_solver|]. split.
      * intros [[? _]|[_ [= <-]]]; [done|]. left. split; [by left|]. eauto.
      * intros [[_ (m' & Hm' & Hv')]|[[] _]]; [|by left]. right. split; [done|]. congruence.
    + naive_solver.
Qed.
Theorem C75_layer_degrees cs noe fi h p : mhist cs false noe fi h p -> exists d, multiplex_degs degs_dist p = Ok d /\
  (forall l, (exists v, dget d l = Some v) <-> l ∈ mlayers p) /\
  forall l v, dget d l = Some v -> forall k c, dget v k = Some c <->
    exists L, lists_exactly L (fun x => layer_node p l x /\ exists N, lists_exactly N (layer_linked p l x) /\ k = Z.of_nat (length N)) /\ L <> [] /\ c = Z.of_nat (length L).
Proof.
  intros Hi%mhist_inv. pose proof (pi_wf _ _ _ _ _ _ Hi) as Hp.
  destruct (layers_fold (fun m => Ok (degs_dist m)) p [] (mlayers p)) as (d & E & Hd).
  { intros l (m & Hm)%mlayers_form; [eauto|done]. }
  exists d. split; [exact E|]. split.
  - intros l. setoid_rewrite Hd. split; [intros (v & [[? _]|[_ ?]]); done|]. intros Hlm. pose proof Hlm as (m & Hm)%mlayers_form; [|done]. exists (degs_dist m). left. eauto.
  - intros l v [[Hlm (m & Hm & [= <-])]|[_ ?]]%Hd; [|done]. intros k c. destruct (pi_view _ _ _ _ _ _ Hi _ _ Hm) as (g & Hg & _).
    assert (reachable m) as Hr by by repeat eexists. rewrite (C30_distribution m Hr). pose proof (reachable_good _ Hr) as Hgd.
    destruct (hist_inv _ _ _ _ _ _ Hg) as [HS _ Ha Hn Hdir Hfi].
    assert (Hpres : forall a, a ∈ iter_node_layers m <-> exists x, a = [x] /\ has_elem m 0 x).
    { intros a. rewrite elem_of_iter_node_layers by done. unfold iter_node_layers. setoid_rewrite has_elem_lookup. pose proof (wfS_len _ HS) as Hsl. rewrite Ha in Hsl.
      rewrite Hfi. unfold nl_in_slices. destruct (slices m) as [|s [|]]; try done. split.
      - intros [HF _]. inversion HF as [|x ? ? ? Hx HF']; subst. inversion HF'; subst. exists x. split; [done|]. by exists s.
      - intros (x & -> & s' & [= <-] & Hx). split; [by repeat constructor|done]. }
    assert (Hlk : forall x y, layer_linked p l x y <-> linked m [x] [y]).
    { intros x y. unfold layer_linked, agetitem. rewrite Hm. cbn [length]. rewrite decide_True by done. rewrite linked_rd by done. rewrite Hn.
      change (get_link m [x; y]) with (get_link m (interleave [x] [y])). rewrite get_link_interleave by done. split; [by intros (w & [= <-] & ?)|eauto]. }
    assert (Hsing : forall (P : nl -> Prop) L, (forall a, P a -> exists y, a = [y]) -> lists_exactly L P -> exists N, lists_exactly N (fun y => P [y]) /\ L = (fun y => [y]) <$> N).
    { intros P L HP [Hnd HL]. assert (L = (fun y => [y]) <$> (node_of <$> L)) as EL.
      { rewrite <- list_fmap_compose. rewrite <- (list_fmap_id L) at 1. apply list_fmap_ext. intros i a Hia. apply elem_of_list_lookup_2, HL, HP in Hia as [y ->]. done. }
      exists (node_of <$> L). split; [|done]. split; [rewrite EL in Hnd; by apply NoDup_fmap_1 in Hnd|]. intros y. rewrite <- HL. rewrite EL at 2. rewrite (elem_of_list_fmap_inj (fun y => [y])). done. }
    assert (Hsing2 : forall (P : nl -> Prop) N, (forall a, P a -> exists y, a = [y]) -> lists_exactly N (fun y => P [y]) -> lists_exactly ((fun y => [y]) <$> N) P).
    { intros P N HP [Hnd HN]. split; [apply NoDup_fmap_2; [by intros ?? [= ->]|done]|]. intros a. rewrite elem_of_list_fmap. setoid_rewrite HN. split; [by intros (y & -> & ?)|].
      intros HPa. destruct (HP a HPa) as [y ->]. eauto. }
    assert (Hl1 : forall x a, linked m [x] a -> exists y, a = [y]).
    { intros x a (_ & Hla & _). rewrite Ha in Hla. destruct a as [|y []]; try done. eauto. }
    assert (Hdg : forall x k, degree m [x] None = k <-> exists N, lists_exactly N (layer_linked p l x) /\ k = Z.of_nat (length N)).
    { intros x k'. assert (Hex : forall L, lists_exactly L (linked m [x]) -> degree m [x] None = Z.of_nat (length L)).
      { intros L HL. apply degree_und_exact; [done..|]. eapply lists_exactly_iff; [|exact HL]. intros b. simpl.
        rewrite !linked_lnk by done. rewrite (wfL_sym m (proj2 Hgd) Hdir b [x]). tauto. }
      split.
      - intros <-. destruct (Hsing (linked m [x]) (iter_out m [x] None) (Hl1 x)) as (N & HN & EN).
        { eapply lists_exactly_iff; [|apply (iter_out_exact m [x] None Hgd I)]. intros b. simpl. tauto. }
        exists N. split; [eapply lists_exactly_iff; [|exact HN]; intros y; simpl; by rewrite Hlk|].
        rewrite (Hex ((fun y => [y]) <$> N)); [by rewrite fmap_length|]. apply Hsing2; [apply Hl1|done].
      - intros (N & HN & ->). rewrite (Hex ((fun y => [y]) <$> N)); [by rewrite fmap_length|]. apply Hsing2; [apply Hl1|].
        eapply lists_exactly_iff; [|exact HN]. intros y. simpl. by rewrite Hlk. }
    assert (Hnode : forall x, layer_node p l x <-> has_elem m 0 x) by (intros x; unfold layer_node; split; [intros (m' & Hm' & ?); congruence|eauto]).
    assert (HQ : forall a, a ∈ iter_node_layers m /\ degree m a None = k -> exists y, a = [y]) by (intros a [(x & -> & _)%Hpres _]; eauto).
    assert (HQ' : forall x, ([x] ∈ iter_node_layers m /\ degree m [x] None = k) <-> (layer_node p l x /\ exists N, lists_exactly N (layer_linked p l x) /\ k = Z.of_nat (length N))).
    { intros x. rewrite Hdg, Hnode, Hpres. split; [intros [(x' & [= <-] & ?) ?]; done|intros [? ?]; split; [eauto|done]]. }
    split.
    + intros (L & HL & Hne & ->). destruct (Hsing _ L HQ HL) as (N & HN & ->). exists N. rewrite fmap_length. split; [|split; [by destruct N|done]].
      eapply lists_exactly_iff; [|exact HN]. intros x. simpl. by rewrite HQ'.
    + intros (L & HL & Hne & ->). exists ((fun y => [y]) <$> L). rewrite fmap_length. split; [|split; [by destruct L|done]]. apply Hsing2; [done|].
      eapply lists_exactly_iff; [|exact HL]. intros x. simpl. by rewrite HQ'.
Qed.
Lemma layer_view cs dir noe fi h p l m : mhist cs dir noe fi h p -> pA p l = Some m ->
  reachable m /\ aspects m = 0 /\ fic m = true /\ directed m = dir /\ (forall a, a ∈ iter_node_layers m <-> exists x, a = [x] /\ layer_node p l x) /\
  (forall x, has_elem m 0 x <-> layer_node p l x) /\ (forall a b, linked m a b <-> exists x y, a = [x] /\ b = [y] /\ layer_linked p l x y).
Proof.
  intros Hi%mhist_inv Hm. destruct (pi_view _ _ _ _ _ _ Hi _ _ Hm) as (g & Hg & _). assert (reachable m) as Hr by by repeat eexists. pose proof (reachable_good _ Hr) as Hgd.
  destruct (hist_inv _ _ _ _ _ _ Hg) as [HS _ Ha Hn Hdir Hfi]. split; [done|]. split; [done|]. split; [done|]. split; [done|].
  assert (Hnode : forall x, has_elem m 0 x <-> layer_node p l x) by (intros x; unfold layer_node; split; [eauto|intros (m' & Hm' & ?); congruence]).
  split; [|split; [done|]].
  - intros a. setoid_rewrite <- Hnode. rewrite elem_of_iter_node_layers by done. unfold iter_node_layers. setoid_rewrite has_elem_lookup. pose proof (wfS_len _ HS) as Hsl. rewrite Ha in Hsl.
    rewrite Hfi. unfold nl_in_slices. destruct (slices m) as [|s [|]]; try done. split.
    + intros [HF _]. inversion HF as [|x ? ? ? Hx HF']; subst. inversion HF'; subst. exists x. split; [done|]. by exists s.
    + intros (x & -> & s' & [= <-] & Hx). split; [by repeat constructor|done].
  - intros a b. assert (forall x y, layer_linked p l x y <-> linked m [x] [y]) as Hlk.
    { intros x y. unfold layer_linked, agetitem. rewrite Hm. cbn [length]. rewrite decide_True by done. rewrite linked_rd by done. rewrite Hn.
      change (get_link m [x; y]) with (get_link m (interleave [x] [y])). rewrite get_link_interleave by done. split; [by intros (w & [= <-] & ?)|eauto]. }
    setoid_rewrite Hlk. split; [|by intros (x & y & -> & -> & ?)]. intros Hk. pose proof Hk as (H1 & H2 & _). rewrite Ha in *.
    destruct a as [|x []], b as [|y []]; try done. eauto 6.
Qed.
(** [multiplex_density]: for every layer the share of the ordered pairs of different nodes
    of the layer that are linked (0 without nodes). *)
Theorem C75_layer_densities cs dir noe fi h p : mhist cs dir noe fi h p -> (forall l x, ~ layer_linked p l x x) ->
  (forall l, l ∈ mlayers p -> (forall x, ~ layer_node p l x) \/ exists x y, x <> y /\ layer_node p l x /\ layer_node p l y) ->
  exists d, multiplex_density p = Ok d /\ (forall l, (exists q, dget d l = Some q) <-> l ∈ mlayers p) /\
    forall l q, dget d l = Some q -> exists Ns Es, lists_exactly Ns (layer_node p l) /\ lists_exactly Es (fun e => layer_linked p l (e.1) (e.2)) /\
      let N := Z.of_nat (length Ns) in
      (N = 0%Z /\ (q == 0)%Q) \/ (2 <= N)%Z /\ (q * inject_Z (N * (N - 1)) == inject_Z (Z.of_nat (length Es)))%Q /\ (0 <= q)%Q /\ (q <= 1)%Q.
Proof.
  intros Hh Hself Hsz. pose proof (mhist_inv _ _ _ _ _ _ Hh) as Hi. pose proof (pi_wf _ _ _ _ _ _ Hi) as Hp.
  assert (Hlay : forall l m, l ∈ mlayers p -> pA p l = Some m -> exists q Ns Es, density m = Ok q /\ lists_exactly Ns (layer_node p l) /\ lists_exactly Es (fun e => layer_linked p l (e.1) (e.2)) /\
      let N := Z.of_nat (length Ns) in
      (N = 0%Z /\ (q == 0)%Q) \/ (2 <= N)%Z /\ (q * inject_Z (N * (N - 1)) == inject_Z (Z.of_nat (length Es)))%Q /\ (0 <= q)%Q /\ (q <= 1)%Q).
  { intros l m Hlm Hm. destruct (layer_view _ _ _ _ _ _ _ _ Hh Hm) as (Hr & Ha & Hf & Hd & Hpres & Hnode & Hlk). pose proof (reachable_good _ Hr) as Hg.
    assert (HNs : lists_exactly (node_of <$> iter_node_layers m) (layer_node p l)).
    { split.
      - apply NoDup_fmap_2_strong; [|apply NoDup_iter_node_layers, Hg]. intros a b (x & -> & _)%Hpres (y & -> & _)%Hpres Exy. change (x = y) in Exy. by subst.
      - intros x. rewrite elem_of_list_fmap. split; [intros (a & -> & (y & -> & ?)%Hpres); done|]. intros Hx. exists [x]. split; [done|]. apply Hpres. eauto. }
    assert (HEs : lists_exactly ((fun e => (node_of (e.1), node_of (e.2))) <$> pairs m) (fun e => layer_linked p l (e.1) (e.2))).
    { assert (Hpl : forall a b, (a, b) ∈ pairs m <-> exists x y, a = [x] /\ b = [y] /\ layer_linked p l x y) by (intros a b; by rewrite elem_of_pairs, <- linked_lnk, Hlk).
      split.
      - apply NoDup_fmap_2_strong; [|by apply NoDup_pairs]. intros [a b] [c e] (x & y & -> & -> & _)%Hpl (x' & y' & -> & -> & _)%Hpl Exy. change ((x, y) = (x', y')) in Exy. by simplify_eq.
      - intros [x y]. rewrite elem_of_list_fmap. split; [intros ([a b] & -> & (x' & y' & -> & -> & ?)%Hpl); done|]. simpl. intros Hxy. exists ([x], [y]). split; [done|]. apply Hpl. eauto. }
    assert (forall a, ~ linked m a a) as Hns. { intros a (x & y & -> & [= <-] & Hk)%Hlk. by apply (Hself l x). }
    destruct (Hsz l Hlm) as [He|(x & y & Hxy & Hx & Hy)].
    - destruct (C31_density_other m Hr) as [H0 _]. destruct H0 as (q & Hq & Hq0); [intros x Hx%Hnode; by apply (He x)|]. exists q. do 2 eexists. split; [done|]. split; [exact HNs|].
      split; [exact HEs|]. left. split; [|done]. destruct HNs as [_ HNs]. destruct (node_of <$> iter_node_layers m) as [|x r]; [done|]. exfalso. apply (He x), HNs. left.
    - assert (2 <= length (iter_node_layers m)) as H2.
      { destruct HNs as [_ HNs]. rewrite <- (fmap_length node_of). pose proof (proj2 (HNs x) Hx) as Hx'. pose proof (proj2 (HNs y) Hy) as Hy'.
        destruct (node_of <$> iter_node_layers m) as [|u [|v r]]; [by apply elem_of_nil in Hx'| |simpl; lia]. apply elem_of_list_singleton in Hx', Hy'. congruence. }
      destruct (C31_density m Hr Hf Hns H2) as (q & Hq & Hq1 & Hq2 & Hq3 & _). exists q. do 2 eexists. split; [done|]. split; [exact HNs|]. split; [exact HEs|]. right.
      rewrite !fmap_length. split; [lia|]. split; [|done]. rewrite Hq1. pose proof (edges_len_pairs m Hg) as Hel. rewrite edges_len_exact in Hel by done.
      destruct (directed m); [by rewrite <- Hel, Z.mul_1_l|]. rewrite Hel. assert (filter is_loop (pairs m) = []) as ->; [|simpl; by rewrite Z.add_0_r].
      destruct (filter is_loop (pairs m)) as [|[a b] r] eqn:Efl; [done|]. exfalso.
      assert ((a, b) ∈ filter is_loop (pairs m)) as Hin by (rewrite Efl; left). apply elem_of_list_filter in Hin as [Hlo Hin].
      unfold is_loop in Hlo. simpl in Hlo. subst b. apply elem_of_pairs in Hin; [|done]. apply (Hns a). by apply linked_lnk. }
  destruct (layers_fold density p [] (mlayers p)) as (d & E & Hd).
  { intros l Hlm. pose proof Hlm as (m & Hm)%mlayers_form; [|done]. destruct (Hlay l m Hlm Hm) as (q & _ & _ & Hq & _). eauto. }
  exists d. split; [exact E|]. split.
  - intros l. setoid_rewrite Hd. split; [intros (v & [[? _]|[_ ?]]); done|]. intros Hlm. pose proof Hlm as (m & Hm)%mlayers_form; [|done].
    destruct (Hlay l m Hlm Hm) as (q & _ & _ & Hq & _). exists q. left. eauto.
  - intros l q [[Hlm (m & Hm & Hq)]|[_ ?]]%Hd; [|done]. destruct (Hlay l m Hlm Hm) as (q' & Ns & Es & Hq' & H). assert (q' = q) as -> by congruence. eauto.
Qed.
(** One layer with a single node makes the call raise. *)
Theorem C75_single_node_layer cs dir noe fi h p l x : mhist cs dir noe fi h p -> (forall l x, ~ layer_linked p l x x) -> l ∈ mlayers p ->
  (forall y, layer_node p l y <-> y = x) -> multiplex_density p = Err ZeroDivisionError.
Proof.
  intros Hh Hself Hlm Hx. pose proof (mhist_inv _ _ _ _ _ _ Hh) as Hi. pose proof (pi_wf _ _ _ _ _ _ Hi) as Hp.
  assert (Hall : forall k, k ∈ mlayers p -> exists m, pA p k = Some m /\ ((exists q, density m = Ok q) \/ density m = Err ZeroDivisionError)).
  { intros k (m & Hm)%mlayers_form; [|done]. exists m. split; [done|]. destruct (layer_view _ _ _ _ _ _ _ _ Hh Hm) as (Hr & Ha & Hf & _).
    unfold density. destruct (decide (net_nodes m = [])); [eauto|]. rewrite Hf. destruct (Qeq_bool _ _); eauto. }
  assert (Hbad : exists m, pA p l = Some m /\ density m = Err ZeroDivisionError).
  { pose proof Hlm as (m & Hm)%mlayers_form; [|done]. exists m. split; [done|]. destruct (layer_view _ _ _ _ _ _ _ _ Hh Hm) as (Hr & Ha & Hf & _ & Hpres & Hnode & _).
    apply (proj2 (proj2 (C31_density_other m Hr))); [exists x; by apply Hnode, Hx|done|].
    assert (forall a, a ∈ iter_node_layers m -> a = [x]) as Ha' by (intros a (y & -> & Hy%Hx)%Hpres; by subst).
    pose proof (NoDup_iter_node_layers m (proj1 (reachable_good _ Hr))) as Hnd. destruct (iter_node_layers m) as [|a [|b r]]; simpl; [lia..|]. exfalso.
    assert (a = b) as ->; [|apply NoDup_cons in Hnd as [Hb _]; apply Hb; left]. rewrite (Ha' a), (Ha' b); [done|right; left|left]. }
  destruct Hbad as (m0 & Hm0 & Hz). unfold multiplex_density. revert Hlm Hall. generalize (mlayers p) ([] : dict layer Q). intros ls. induction ls as [|k ls IH]; intros d Hl Hall; [by apply elem_of_nil in Hl|].
  cbn [rfold]. destruct (Hall k ltac:(left)) as (m & Hm & Hq). rewrite Hm. destruct Hq as [[q Hq]|Hq]; rewrite Hq; cbn [rbind]; [|done].
  apply elem_of_cons in Hl as [->|Hl]; [congruence|]. apply IH; [done|]. intros; apply Hall. by right.
Qed.

(** ** C76, multiplex networks *)
Definition msource (p : mpx) (sources : list (list (option name))) (aasp : list nat) (x : nl) : Prop :=
  (exists s, s ∈ sources /\ matches_source (maspects p) (mhas p) aasp s x) /\ exists b, mlink p x b.
Theorem C76_multiplex_prune cs h p sources aasp : mhist cs false 0 true h p -> faithful cs true p -> loopless p ->
  sources_ok (maspects p) aasp sources -> (forall s a y, s ∈ sources -> s !! a = Some (Some y) -> mhas p a y) ->
  (forall a b w, mlk p a b w -> (0 < w)%Z) ->
  exists N, forall choose fuel, heap_choice choose -> N <= fuel -> exists nd f,
    mdijkstra_prune p choose fuel sources aasp = Ok (nd, f) /\
    (forall y D, dget nd y = Some D <-> least (mlk p) (msource p sources aasp) aasp y D) /\
    reachable f /\ aspects f = maspects p /\ directed f = true /\ noEdge f = (-1)%Z /\
    (forall a b w, a <> b -> nlk f a b w <-> tight (mlk p) (msource p sources aasp) a b w /\ leads (mlk p) (msource p sources aasp) aasp b) /\
    (forall a w, nlk f a a w <-> msource p sources aasp a /\ leads (mlk p) (msource p sources aasp) aasp a /\ w = 0%Z).
Proof.
  intros Hh Hc Hl Hok Hnm Hpos. destruct (nls_all _ _ _ _ _ Hh) as (U & _ & HU). pose proof (mlk_nb _ _ _ _ _ Hh Hc Hl) as HLK.
  pose proof (mhist_inv _ _ _ _ _ _ Hh) as Hi. pose proof (pi_wf _ _ _ _ _ _ Hi) as Hp.
  assert (Hcart : forall a, mexists p a -> a ∈ cart (mslices p)) by (intros a Ha; by eapply ex_cart).
  assert (Hlen : forall a, mexists p a -> length a = S (maspects p)) by (intros a Ha; by eapply ex_len).
  assert (HLK' : forall a b w, mlk p a b w <-> a ∈ U /\ b ∈ nbf p DOut a /\ w = MR p a b) by (intros a b w; rewrite HLK, HU; naive_solver).
  assert (HUnb : forall a b, mexists p a -> b ∈ nbf p DOut a -> mexists p b).
  { intros a b Ha Hb. apply (elem_of_nbf _ _ _ _ p Hh Hc Hl DOut a b) in Hb; [tauto|auto]. }
  assert (Hhas : forall a y, mhas p a y <-> exists l, mslices p !! a = Some l /\ y ∈ l).
  { intros a y. unfold mhas, mget_layers. destruct (mslices p !! a) as [s|]; split; intros (s' & H & ?); try done; injection H as ->; eauto. }
  assert (Hcm : forall s x, matches_source (maspects p) (mhas p) aasp s x <-> cand (maspects p) (mslices p) aasp s x) by (intros; by apply cand_matches).
  assert (Hcx : forall s x, s ∈ sources -> cand (maspects p) (mslices p) aasp s x -> mexists p x).
  { intros s x Hs Hx%Hcm. destruct Hx as [Hlx Hx]. rewrite mexists_iff by done. rewrite (pi_fic _ _ _ _ _ _ Hi). split; [done|]. intros k y Hk. destruct (Hx k y Hk) as [H1 H2].
    unfold psl. apply Hhas. destruct (decide (k ∈ aasp)); [auto|]. apply (Hnm s); auto. }
  set (DG := fun x => Z.of_nat (length (nbf p DTot x))).
  assert (Hdg : forall x, mexists p x -> mp_degree p DTot x None = Ok (DG x)) by (intros x Hx; apply (degree_any _ _ _ _ p Hh Hc Hl x Hx)).
  assert (Hdl : forall x, mexists p x -> (0 < DG x)%Z <-> exists b, mlink p x b).
  { intros x Hx. unfold DG. pose proof (fun b => elem_of_nbf _ _ _ _ p Hh Hc Hl DTot x b (Hcart x Hx)) as HE. split.
    - destruct (nbf p DTot x) as [|b r]; [simpl; lia|]. intros _. exists b. destruct (proj1 (HE b) ltac:(left)) as (_ & Hb & Hk). split; [done|]. split; [done|].
      destruct Hk as [?|Hk]; [done|]. apply (MR_linked _ _ _ _ p Hh) in Hk; [|done..]. apply (MR_linked _ _ _ _ p Hh); [done..|]. by rewrite (MR_sym cs _ _ _ p Hh Hc) by done.
    - intros (b & _ & Hb & Hk). assert (b ∈ nbf p DTot x) as Hin by (apply HE; split; [done|]; split; [done|]; by left). destruct (nbf p DTot x); [by apply elem_of_nil in Hin|simpl; lia]. }
  assert (HS : forall x, msource p sources aasp x <-> SRC (maspects p) (mslices p) DG sources aasp x).
  { intros x. unfold msource, SRC. setoid_rewrite Hcm. split; intros [(s & Hs & Hx) Hd]; (split; [eauto|]); pose proof (Hcx s x Hs Hx); by apply Hdl. }
  assert (HSx : forall x, msource p sources aasp x -> mexists p x) by (intros x [_ (b & ? & _)]; done).
  destruct (generic_prune (maspects p) (mslices p) (fun a => mp_degree p DTot a None) (fun a => mp_iter p DOut a None) (pget_pair p)
    U (nbf p DOut) (MR p) DG sources aasp (mlk p) (msource p sources aasp)) as (N & HN); try done.
  { intros x s Hs Hx. apply Hdg. by apply (Hcx s). }
  { intros x Hx. apply HU. auto. }
  { intros a Ha%HU. auto. }
  { intros a Ha%HU. apply (nbf_ok _ _ _ _ p Hh Hc Hl). auto. }
  { intros a b Ha%HU Hb. apply HU. eauto. }
  { intros a b Ha%HU Hb. by apply (pget_MR _ _ _ _ p Hh Hc Hl). }
  { intros s Hs%HSx. destruct (pget_self _ _ _ _ _ Hh s Hs) as [-> ->]. done. }
  exists N. intros choose fuel Hch Hf. destruct (HN choose fuel Hch Hf) as (nd & f & E & H1 & H2 & H3 & H4 & H5 & H6 & H7). exists nd, f.
  split; [exact E|]. do 6 (split; [done|]). intros a w. unfold nlk. rewrite H7. split.
  - intros (Hs & Hle & -> & _). split; [done|]. split; [done|]. by apply (pget_self _ _ _ _ _ Hh), HSx.
  - intros (Hs & Hle & ->). split; [done|]. split; [done|]. split; [|done]. symmetry. by apply (pget_self _ _ _ _ _ Hh), HSx.
Qed.

(** ** Examples *)
(** Every weight of a multiplex network is positive if all of those of the pairs of its
    slices are. *)
Lemma mlk_pos_by cs dir fi h p : mhist cs dir 0 fi h p -> faithful cs fi p -> loopless p ->
  forallb (fun a => forallb (fun b => bool_decide (0 < MR p a b)%Z) (nbf p DOut a)) (cart (mslices p)) = true -> forall a b w, mlk p a b w -> (0 < w)%Z.
Proof.
  intros Hh Hc Hl HF a b w Hk. apply (mlk_nb _ _ _ _ _ Hh Hc Hl) in Hk as ([Ha _] & Hb & ->). rewrite forallb_forall in HF. apply elem_of_list_In in Ha. specialize (HF a Ha).
  rewrite forallb_forall in HF. apply elem_of_list_In in Hb. specialize (HF b Hb). by rewrite bool_decide_eq_true in HF.
Qed.
Lemma nlk_pos_by n : reachable n -> forallb (fun q => bool_decide (0 < rd n (q.1) (q.2))%Z) (pairs n) = true -> forall a b w, nlk n a b w -> (0 < w)%Z.
Proof.
  intros Hr HF a b w [Hl Hw]. pose proof (reachable_good _ Hr) as Hg. pose proof Hl as (Ha & Hb & _). apply reads_rd in Hw; [|done|done].
  pose proof (proj1 (linked_lnk _ _ _ Hg) Hl) as Hk. apply elem_of_pairs in Hk; [|done]. subst w.
  rewrite forallb_forall in HF. apply elem_of_list_In in Hk. specialize (HF _ Hk). by rewrite bool_decide_eq_true in HF.
Qed.
(** From node 1 of any layer: node 2 of layer a is reached through layer b. *)
Definition ex76 : mlnet := run (new_net 1 0 false true)
  [OpSet [A1; A2; sa; sa] 5; OpSet [A1; A3; sb; sb] 2; OpSet [A3; A3; sb; sa] 1; OpSet [A3; A2; sa; sa] 1; OpSet [A2; A2; sa; sb] 7]%Z.
Example C76_example : (exists N, forall choose fuel, heap_choice choose -> N <= fuel -> exists r, dijkstra_prune ex76 choose fuel [[Some A1; None]] [1%nat] = Ok r) /\
  match dijkstra_prune ex76 (fun _ => first_min) 20 [[Some A1; None]] [1%nat] with
  | Ok (nd, f) => nd = [([A1], 0); ([A2], 4); ([A3], 2)]%Z /\
      edges f = [([A1; A1; sa; sa], 0); ([A1; A1; sb; sb], 0); ([A1; A3; sb; sb], 2); ([A3; A2; sa; sa], 1); ([A3; A3; sb; sa], 1)]%Z
  | Err _ => False
  end /\
  dijkstra_prune ex76 (fun _ => first_min) 20 [[Some A1; Some sa]] [1%nat] = Err AssertionError.
Proof.
  assert (reachable ex76) as Hr by (do 5 eexists; apply run_hist0). split; [|split; [by vm_compute|by vm_compute]].
  - destruct (C76_prune ex76 [[Some A1; None]] [1%nat] Hr) as (N & HN).
    + apply (bool_decide_unpack _). by vm_compute.
    + assert (aspects ex76 = 1) as -> by by vm_compute. intros s ->%elem_of_list_singleton. split; [done|]. by intros a ->%elem_of_list_singleton _.
    + apply nlk_pos_by; [done|]. by vm_compute.
    + exists N. intros choose fuel H1 H2. destruct (HN choose fuel H1 H2) as (nd & f & -> & _). eauto.
Qed.
(** The two networks of PropsMpx.v. *)
Example C75_example : (exists N, forall choose fuel, heap_choice choose -> N <= fuel -> exists r, mdijkstra exf.2 choose fuel [[n1; sa; n1]] = Ok r) /\
  (exists N, forall choose fuel, heap_choice choose -> N <= fuel -> exists r, mdijkstra exn_.2 choose fuel [[n3; sc]] = Ok r) /\
  match mdijkstra exn_.2 (fun _ => first_min) 30 [[n3; sc]] with
  | Ok (d, f) => d = [([n3; sc], 0); ([n1; sc], 4); ([n1; sa], 6); ([n1; sb], 6); ([n2; sa], 11); ([n2; sb], 13)]%Z /\ length (edges f) = 6
  | Err _ => False
  end /\
  match multiplex_degs degs_dist exf.2 with Ok d => dget d (LTup [sa; n1]) = Some [(1, 2); (0, 2)]%Z /\ length d = 6 | Err _ => False end /\
  match multiplex_density exf.2 with Ok d => dget d (LTup [sa; n1]) = Some (2 # 12)%Q /\ length d = 6 | Err _ => False end.
Proof.
  destruct C56_example_ordinal as (Hc & Hl & _). destruct C56_example_partial_layers as (Hc' & Hl' & _).
  assert (forall p a, pwf p -> match miter_node_layers p with Ok L => bool_decide (a ∈ L) | Err _ => false end = true -> mexists p a) as Hex.
  { intros p a Hp. unfold mexists. destruct (miter_node_layers p) as [L|]; [|done]. rewrite bool_decide_eq_true. eauto. }
  split; [|split; [|split; [|split]]].
  - destruct (C75_dijkstra _ _ _ _ _ [[n1; sa; n1]] exf_hist Hc Hl) as (N & HN).
    + intros s ->%elem_of_list_singleton. apply Hex; [apply (pi_wf _ _ _ _ _ _ (mhist_inv _ _ _ _ _ _ exf_hist))|]. by vm_compute.
    + apply (mlk_pos_by _ _ _ _ _ exf_hist Hc Hl). by vm_compute.
    + exists N. intros choose fuel H1 H2. destruct (HN choose fuel H1 H2) as (d & f & E & _). eauto.
  - destruct (C75_dijkstra _ _ _ _ _ [[n3; sc]] exn_hist Hc' Hl') as (N & HN).
    + intros s ->%elem_of_list_singleton. apply Hex; [apply (pi_wf _ _ _ _ _ _ (mhist_inv _ _ _ _ _ _ exn_hist))|]. by vm_compute.
    + apply (mlk_pos_by _ _ _ _ _ exn_hist Hc' Hl'). by vm_compute.
    + exists N. intros choose fuel H1 H2. destruct (HN choose fuel H1 H2) as (d & f & E & _). eauto.
  - by vm_compute.
  - by vm_compute.
  - by vm_compute.
Qed.
Lemma names_by p ss : forallb (fun s => forallb (fun q : nat * option name => match q.2 with None => true | Some y =>
    match mget_layers p (q.1) with Ok l => bool_decide (y ∈ l) | Err _ => false end end) (imap pair s)) ss = true ->
  forall s a y, s ∈ ss -> s !! a = Some (Some y) -> mhas p a y.
Proof.
  intros HF s a y Hs Ha. rewrite forallb_forall in HF. apply elem_of_list_In in Hs. specialize (HF s Hs). rewrite forallb_forall in HF.
  assert ((a, Some y) ∈ imap pair s) as Hin by (apply elem_of_list_lookup; exists a; by rewrite list_lookup_imap, Ha). apply elem_of_list_In in Hin. specialize (HF _ Hin). simpl in HF.
  unfold mhas. destruct (mget_layers p a) as [l|]; [|done]. rewrite bool_decide_eq_true in HF. eauto.
Qed.
Example C76_multiplex_example : (exists N, forall choose fuel, heap_choice choose -> N <= fuel -> exists r, mdijkstra_prune exf.2 choose fuel [[Some n1; None; Some n1]] [1%nat] = Ok r) /\
  match mdijkstra_prune exf.2 (fun _ => first_min) 60 [[Some n1; None; Some n1]] [1%nat] with
  | Ok (nd, f) => nd = [([n1; n1], 0); ([n2; n1], 6); ([n1; n2], 3); ([n1; n3], 6); ([n3; n2], 7); ([n2; n2], 9); ([n3; n3], 10); ([n3; n1], 10); ([n2; n3], 12)]%Z /\ length (edges f) = 12
  | Err _ => False
  end.
Proof.
  destruct C56_example_ordinal as (Hc & Hl & _). split.
  - assert (maspects exf.2 = 2) as Has by by vm_compute.
    destruct (C76_multiplex_prune _ _ _ [[Some n1; None; Some n1]] [1%nat] exf_hist Hc Hl) as (N & HN).
    + rewrite Has. intros s ->%elem_of_list_singleton. split; [done|]. by intros a ->%elem_of_list_singleton _.
    + apply names_by. by vm_compute.
    + apply (mlk_pos_by _ _ _ _ _ exf_hist Hc Hl). by vm_compute.
    + exists N. intros choose fuel H1 H2. destruct (HN choose fuel H1 H2) as (nd & f & E & _). exists (nd, f). exact E.
  - by vm_compute.
Qed.
Print Assumptions C75_dijkstra.
Print Assumptions C75_layer_degrees.
Print Assumptions C75_layer_densities.
Print Assumptions C75_single_node_layer.
Print Assumptions C76_selection.
Print Assumptions C76_prune.
Print Assumptions C76_undirected_degree.
Print Assumptions C76_source_rejected.
Print Assumptions C76_multiplex_prune.
