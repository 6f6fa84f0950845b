(** * Elementary cycles summed over node-layers; the aggregated network; bounds *)
From Verif Require Import Cc CcFacts CcSpec PropsMpx PropsTrans MpxEdges PropsMpxEdges.
From Verif Require Import MpxIter TransFacts NetEdges PropsNet.
Open Scope Z_scope.

Lemma vadd_sum {A W} (f : A -> W -> Z) (Ws : list W) (L : list A) acc : length acc = length Ws ->
  foldl vadd acc ((fun a => f a <$> Ws) <$> L) = zip_with Z.add acc ((fun q => zsumf (fun a => f a q) L) <$> Ws).
Proof.
  revert acc. induction L as [|a L IH]; intros acc Hl; cbn [fmap list_fmap foldl].
  - revert Ws Hl. induction acc as [|z acc IHa]; intros [|q Ws] Hl; simpl in *; [done..|]. injection Hl as Hl. rewrite <- IHa by done. f_equal. unfold zsumf, zsum. simpl. lia.
  - unfold list_fmap in IH. fold (@list_fmap A (list Z)) in IH. rewrite IH by (unfold vadd; rewrite zip_with_length, fmap_length; lia). clear IH. unfold vadd.
    revert Ws Hl. induction acc as [|z acc IHa]; intros [|q Ws] Hl; simpl in *; [done..|]. injection Hl as Hl. f_equal; [rewrite zsumf_cons; lia|by apply IHa].
Qed.
Lemma vsum_sum {A W} (f : A -> W -> Z) (Ws : list W) (L : list A) : length Ws = 10%nat ->
  vsum ((fun a => f a <$> Ws) <$> L) = (fun q => zsumf (fun a => f a q) L) <$> Ws.
Proof.
  intros Hl. unfold vsum. rewrite vadd_sum by (rewrite replicate_length; lia). rewrite <- Hl. clear. generalize ((fun q => zsumf (fun a => f a q) L)). intros g.
  induction Ws as [|q Ws IH]; [done|]. change (0 + g q :: zip_with Z.add (replicate (length Ws) 0) (g <$> Ws) = g q :: (g <$> Ws)). by rewrite IH.
Qed.

Lemma zsumf_one {A} (f : A -> Z) a : zsumf f [a] = f a.
Proof. rewrite zsumf_cons, zsumf_nil. lia. Qed.

Section Agg2.
  Context (w : Z) (fi : bool) (h : list call) (p : mpx) (Hh : mhist [CCat w] false 0 fi h p) (Hw : w <> 0) (Hs : no_loops p).
  Let Hi : pinv [CCat w] false 0 fi h p := mhist_inv _ _ _ _ _ _ Hh.
  Let Hp : pwf p := pi_wf _ _ _ _ _ _ Hi.
  Let Has : maspects p = 1%nat := pinv_asp _ _ _ _ _ _ Hi.
  Lemma cc_faithful : faithful [CCat w] fi p.
  Proof.
    unfold faithful. case_eq fi; intros Hf; [left|right].
    - split; [done|]. split; [simpl; lia|]. intros a _ [|d] c Hc; simpl in Hc; [|by destruct d]. by injection Hc as <-.
    - split; [done|]. by exists w.
  Qed.
  Lemma ex_pair a : mexists p a -> exists x l, a = [x; l].
  Proof. intros (Hl & _)%(mexists_psl p a Hp). rewrite Has in Hl. destruct a as [|x [|l []]]; try done. by exists x, l. Qed.
  Lemma cc_loopless : loopless p.
  Proof.
    intros a Ha. destruct (ex_pair a Ha) as (x & l & ->). rewrite Has. change (player_of 1 [x; l]) with (LBare l). change (node_of [x; l]) with x.
    apply (el_1 w fi h p Hi) in Ha. apply (el_in w fi h p Hi) in Ha as [_ Hl]. apply (lay_view w fi h p Hi) in Hl as [m Hm].
    specialize (Hs l x). unfold agetitem in *. rewrite Hm in *. simpl in *. f_equal. by apply Hs.
  Qed.
  Lemma linked_intra i j l : mlinked p [i; l] [j; l] <-> bl p l i j = 1.
  Proof.
    rewrite bl_1. unfold mlinked. setoid_rewrite mreads_pair; [|by rewrite Has..]. rewrite (read_intra w fi h p Hi Hs), (pi_noe _ _ _ _ _ _ Hi).
    split; [by intros (v & [= <-] & ?)|eauto].
  Qed.
  Lemma linked_two i j l l' : i <> j -> l <> l' -> ~ mlinked p [i; l] [j; l'].
  Proof.
    intros Hij Hll. unfold mlinked. setoid_rewrite mreads_pair; [|by rewrite Has..]. rewrite pget_pair_none; [by intros (v & [= <-] & ?)|done|].
    intros d (_ & Hd & Hk). destruct d as [|[|d]]; simpl in Hd; [|..|lia].
    - destruct (Hk 1%nat) as [_ H]. specialize (H ltac:(done)). by injection H as ->.
    - destruct (Hk 0%nat) as [_ H]. specialize (H ltac:(done)). by injection H as ->.
  Qed.
  (** The network aggregated over the layers. *)
  Lemma agg_wt : exists n, maggregate p [1%nat] false = Ok n /\ good n /\ reachable n /\ aspects n = 0%nat /\ noEdge n = 0 /\ directed n = false /\
    (forall x, x ∈ net_nodes n <-> x ∈ mnodes p) /\
    forall i j, w0 n i j = zsumf (fun l => wt p l i j) (lays p).
  Proof.
    destruct (C57_multiplex_aggregate [CCat w] false fi h p [1%nat] Hh cc_faithful cc_loopless) as (n & E & Hr & Ha & Hd & Hn & _ & Hsum & Hself & Hnodes & _).
    { apply NoDup_singleton. } { intros d Hin%elem_of_list_singleton. rewrite Has. lia. }
    rewrite Has in Ha. simpl in Ha. pose proof (reachable_good _ Hr) as Hg. exists n. split_and!; try done.
    { intros x. rewrite net_nodes_sl, <- has_elem_sl, Hnodes, mnodes_psl. unfold mhas, mget_layers, psl. split.
      - intros (s & Hs' & Hx). destruct (mslices p !! 0%nat) as [s0|] eqn:E0; [|done]. injection Hs' as ->. eauto.
      - intros (s & Hs' & Hx). rewrite Hs'. eauto. }
    intros i j. destruct (decide (i = j)) as [->|Hne].
    - rewrite zsumf_zero by (intros l _; apply (wt_self p Hs)). destruct (decide (w0 n j j = 0)) as [?|Hz]; [done|]. apply w0_linked in Hz; [|done..]. by apply Hself in Hz.
    - destruct (Hsum [i] [j]) as (W & (L & ws & HL & Hws & ->) & Hread); [by rewrite Ha..|congruence|].
      apply reads_rd in Hread; [|by rewrite Ha..]. unfold w0. rewrite weight_rd by done. rewrite <- Hread.
      assert (Permutation L ((fun l => ([i; l], [j; l])) <$> filter (fun l => wt p l i j <> 0) (lays p))) as HP.
      { apply NoDup_Permutation; [apply HL| |].
        - apply NoDup_fmap; [by intros ?? [= ?]|]. apply NoDup_filter, (NoDup_lays w fi h p Hi).
        - intros [a b]. destruct HL as [_ HL]. rewrite HL, elem_of_list_fmap. simpl. split.
          + intros ((Hxa & Hxb & Hk) & Hka & Hkb). destruct (ex_pair a Hxa) as (x & l & ->). destruct (ex_pair b Hxb) as (y & l' & ->).
            assert (x = i) as -> by (by injection Hka). assert (y = j) as -> by (by injection Hkb).
            destruct (decide (l = l')) as [<-|Hll]; [|by apply linked_two in Hk]. exists l. split; [done|]. apply linked_intra in Hk. apply elem_of_list_filter. split; [by apply bl_1|].
            apply (bl_el w fi h p Hi) in Hk as [Hk _]. by apply (el_in w fi h p Hi) in Hk as [_ ?].
          + intros (l & [= -> ->] & [Hz _]%elem_of_list_filter). apply bl_1 in Hz. split; [|done]. destruct (bl_el w fi h p Hi _ _ _ Hz) as [Hz1 Hz2].
            apply (el_1 w fi h p Hi) in Hz1, Hz2. split; [done|]. split; [done|]. by apply linked_intra. }
      assert (foldr Z.add 0 ws = zsumf (fun q => wt p (default (NInt 0) (q.1 !! 1%nat)) i j) L) as ->.
      { assert (forall q, q ∈ L -> forall v, mreads p (q.1) (q.2) v -> v = wt p (default (NInt 0) (q.1 !! 1%nat)) i j) as Hv.
        { intros q Hq v Hrd. rewrite HP in Hq. apply elem_of_list_fmap in Hq as (l & -> & _). simpl in *. rewrite mreads_pair in Hrd by (by rewrite Has).
          rewrite (read_intra w fi h p Hi Hs) in Hrd. by injection Hrd. }
        clear -Hws Hv. induction Hws as [|q v L ws Hq Hws IH]; [done|]. rewrite zsumf_cons. simpl. rewrite IH by (intros q' Hq'; apply Hv; by right).
        f_equal. apply Hv; [left|done]. }
      rewrite (zsumf_perm _ _ _ HP), zsumf_fmap. simpl. rewrite zsumf_filter. apply zsumf_ext. intros l _. destruct (decide _); [done|]. lia.
  Qed.
  (** The rows of the three matrices can be computed. *)
  Lemma matrices_exist : exists V A C F, lists_exactly V (mexists p) /\ indicates (stepA p) A /\ indicates (stepC p) C /\ indicates (stepF p) F.
  Proof.
    destruct (miter_node_layers_ok p Hp) as (V & HV & _). assert (forall a, mexists p a <-> a ∈ V) as HE.
    { intros a. split; [|intros; by exists V]. intros (L' & HL' & ?). congruence. }
    assert (forall a b, Decision (mlinked p a b)) as Hdec.
    { intros a b. destruct (decide (length a = S (maspects p))) as [Ha|Ha]; [destruct (decide (length b = S (maspects p))) as [Hb|Hb]|].
      - destruct (pget_pair p a b) as [v|e] eqn:E.
        + destruct (decide (v = mnoe p)) as [Hv|Hv]; [right|left].
          * intros (v' & Hr & Hne). rewrite mreads_pair in Hr by done. congruence.
          * exists v. by rewrite mreads_pair by done.
        + right. intros (v' & Hr & Hne). rewrite mreads_pair in Hr by done. congruence.
      - right. intros (v' & (it & Hn & _) & _). destruct (names_link_inv _ _ _ _ Hn) as (? & ? & _). done.
      - right. intros (v' & (it & Hn & _) & _). destruct (names_link_inv _ _ _ _ Hn) as (? & ? & _). done. }
    assert (forall P : nl -> nl -> Prop, (forall a b, Decision (P a b)) -> exists M, indicates P M) as Hind.
    { intros P HD. exists (fun a b => if decide (P a b) then 1 else 0). intros a b. destruct (decide (P a b)); tauto. }
    destruct (Hind (stepA p)) as [A HA]; [intros; unfold stepA; apply _|].
    destruct (Hind (stepC p)) as [C HC]; [intros; unfold stepC; apply _|].
    destruct (Hind (fun a b => a ∈ V /\ b ∈ V /\ tail a = tail b /\ a <> b)) as [F HF]; [apply _|].
    exists V, A, C, F. split; [|split; [done|split; [done|]]].
    - split; [|intros; by rewrite HE]. eapply nls_NoDup; [exact Hh|exact cc_faithful|exact HV].
    - intros a b. specialize (HF a b). unfold stepF. by rewrite !HE.
  Qed.
  Context (V : list nl) (A C F : nl -> nl -> Z) (HV : lists_exactly V (mexists p)) (HA : indicates (stepA p) A) (HC : indicates (stepC p) C)
    (HF : indicates (stepF p) F).
  Let Ws := cycle_words A C F.
  Definition gcv (a : nl) (W : list (nl -> nl -> Z)) : Z := if decide (a ∈ V) then mprod V W a a else 0.
  Lemma gcv_in x l : el p x l = 1 -> counts p x l = gcv [x; l] <$> Ws.
  Proof.
    intros E. rewrite <- (words_counts w fi h p Hi Hw Hs V HV A C F HA HC HF x l E). unfold Ws. apply list_fmap_ext. intros _ W _. unfold gcv.
    rewrite decide_True; [done|]. apply HV. by apply (el_1 w fi h p Hi).
  Qed.
  Lemma gcv_bf x l : l ∈ lays p -> cc_cycle_vector_bf p x l = Ok (gcv [x; l] <$> Ws).
  Proof.
    intros Hl. destruct (el_01 p x l) as [E|E].
    - rewrite (c_bf_absent w fi h p Hi) by (done || lia). f_equal. assert ([x; l] ∉ V) as Hn.
      { intros Hin. apply HV, (el_1 w fi h p Hi) in Hin. lia. }
      unfold Ws, cycle_words, gcv. cbn [fmap list_fmap]. by rewrite !decide_False.
    - pose proof Hl as [m Hm]%(lay_view w fi h p Hi). rewrite (c_bf w fi h p Hi Hw Hs x l m Hm E). f_equal. by apply gcv_in.
  Qed.
  Lemma gcv_sum W T (S : list nl) : NoDup T -> lists_exactly S (fun a => mexists p a /\ a ∈ T) -> zsumf (fun a => gcv a W) T = zsumf (fun a => mprod V W a a) S.
  Proof.
    intros HT HS. unfold gcv. rewrite <- zsumf_filter. apply zsumf_perm, NoDup_Permutation; [by apply NoDup_filter|apply HS|].
    intros a. rewrite elem_of_list_filter. destruct HS as [_ HS]. rewrite HS. destruct HV as [_ HV']. by rewrite HV'.
  Qed.
  (** The overlap network of [p]: between two nodes, the number of layers linking them. *)
  Definition ov_net (an : mlnet) : Prop := good an /\ aspects an = 0%nat /\ noEdge an = 0 /\ directed an = false /\
    forall i j, w0 an i j = zsumf (fun l => bl p l i j) (lays p).
  Lemma el_fi x l : fi = true -> x ∈ mnodes p -> l ∈ lays p -> el p x l = 1.
  Proof.
    intros Hf Hx Hl. pose proof Hl as [m Hm]%(lay_view w fi h p Hi). apply (el_view w fi h p Hi x l m Hm).
    rewrite (pA_nodes_fic _ _ _ Hm); [done|]. by rewrite (pi_fic _ _ _ _ _ _ Hi).
  Qed.
  Definition tgrid (nodes ls : list name) : list nl := ls ≫= (fun l => (fun x => [x; l]) <$> nodes).
  Lemma NoDup_tgrid nodes ls : NoDup nodes -> NoDup ls -> NoDup (tgrid nodes ls).
  Proof.
    intros H1 H2. apply NoDup_bind; [done| |].
    - intros l _. apply NoDup_fmap; [by intros ?? [= ?]|done].
    - intros l l' a _ _ (? & -> & _)%elem_of_list_fmap (? & [= -> ->] & _)%elem_of_list_fmap. done.
  Qed.
  Lemma elem_of_tgrid nodes ls a : a ∈ tgrid nodes ls <-> exists x l, a = [x; l] /\ x ∈ nodes /\ l ∈ ls.
  Proof.
    unfold tgrid. rewrite elem_of_list_bind. split.
    - intros (l & (x & -> & Hx)%elem_of_list_fmap & Hl). eauto 6.
    - intros (x & l & -> & Hx & Hl). exists l. split; [|done]. apply elem_of_list_fmap. eauto.
  Qed.
  Lemma zsumf_tgrid (f : nl -> Z) nodes ls : zsumf f (tgrid nodes ls) = zsumf (fun x => zsumf (fun l => f [x; l]) ls) nodes.
  Proof.
    unfold tgrid. rewrite zsumf_bind, zsumf_swap. apply zsumf_ext. intros l _. by rewrite zsumf_fmap.
  Qed.
  Definition sel_nodes (node : option name) : list name := match node with None => mnodes p | Some x => [x] end.
  Definition sel_lays (lay : option name) : list name := match lay with None => lays p | Some l => [l] end.
  Lemma mlayers_eq : mlayers p = LBare <$> lays p.
  Proof. unfold mlayers. rewrite Has. by rewrite decide_False, decide_True by lia. Qed.
  Lemma ec_sum node lay anet : (forall x, node = Some x -> x ∈ mnodes p) -> (forall l, lay = Some l -> l ∈ lays p) ->
    (forall an, anet = Some an -> ov_net an) -> (fi = true -> node = None -> anet = None -> forall l i j, wt p l i j = bl p l i j) ->
    elementary_cycles p node lay anet = Ok ((fun W => zsumf (fun a => gcv a W) (tgrid (sel_nodes node) (sel_lays lay))) <$> Ws).
  Proof.
    intros Hno Hla Han Hun.
    assert (NoDup (sel_nodes node) /\ forall x, x ∈ sel_nodes node -> x ∈ mnodes p) as [HnN HnI].
    { destruct node as [x|]; simpl; [|split; [apply (NoDup_mnodes w fi h p Hi)|done]]. split; [apply NoDup_singleton|].
      intros y ->%elem_of_list_singleton. by apply Hno. }
    assert (NoDup (sel_lays lay) /\ forall x, x ∈ sel_lays lay -> x ∈ lays p) as [HlN HlI].
    { destruct lay as [x|]; simpl; [|split; [apply (NoDup_lays w fi h p Hi)|done]]. split; [apply NoDup_singleton|].
      intros y ->%elem_of_list_singleton. by apply Hla. }
    destruct (decide (is_Some node /\ is_Some lay)) as [[[x ->] [l ->]]|Hb].
    { change (elementary_cycles p (Some x) (Some l) anet) with (cc_cycle_vector_bf p x l). rewrite gcv_bf by (by apply Hla). f_equal. apply list_fmap_ext. intros _ W _. change (tgrid _ _) with [[x; l]]. by rewrite zsumf_one. }
    assert (elementary_cycles p node lay anet =
      (if mfic p && (bool_decide (is_Some anet) || bool_decide (node = None)) then
      let? an := match anet with Some an => Ok an | None => maggregate p [1%nat] false end in
      let? vs := rmapM (fun x => cc_cycle_vector_anet p x lay an) (sel_nodes node) in
      Ok (foldl vadd (replicate 10 0) vs)
      else
      let? ls := match lay with
                 | None => rmapM (fun l => match l with LBare y => Ok y | LTup _ => Err AssertionError end) (mlayers p)
                 | Some l => Ok [l] end in
      let? vss := rmapM (fun l => rmapM (fun x => cc_cycle_vector_bf p x l) (sel_nodes node)) ls in
      Ok (foldl vadd (replicate 10 0) (concat vss)))) as ->.
    { destruct node, lay; try done. exfalso. apply Hb. split; by eexists. }
    pose proof (pi_fic _ _ _ _ _ _ Hi) as Hfic. destruct (mfic p && _) eqn:Ec.
    - apply andb_true_iff in Ec as [Hf Ec]. rewrite Hf in Hfic. symmetry in Hfic.
      assert (exists an, (match anet with Some an => Ok an | None => maggregate p [1%nat] false end) = Ok an /\ ov_net an) as (an & -> & Hg & Ha & Hn & Hd & HW).
      { destruct anet as [an|]; [exists an; split; [done|by apply Han]|]. destruct agg_wt as (n & E & Hg & _ & Ha & Hn & Hd & _ & HW). exists n. split; [done|].
        split_and!; try done. intros i j. rewrite HW. apply zsumf_ext. intros l _. apply Hun; [done| |done]. 
        rewrite bool_decide_false in Ec by (by intros [? ?]). simpl in Ec. by apply bool_decide_eq_true in Ec. }
      cbn [rbind].
      rewrite (rmapM_Ok_iff _ (fun x => (fun W => zsumf (fun l => gcv [x; l] W) (sel_lays lay)) <$> Ws)).
      + cbn [rbind]. f_equal. change (foldl vadd (replicate 10 0) ?v) with (vsum v). rewrite vsum_sum by done.
        apply list_fmap_ext. intros _ W _. by rewrite zsumf_tgrid.
      + intros x Hx%HnI. destruct lay as [l|].
        * assert (l ∈ lays p) as Hl by (by apply Hla). pose proof Hl as [m Hm]%(lay_view w fi h p Hi).
          rewrite (c_anet w fi h p Hi Hs an Hg Ha Hn HW x l m Hm Hf Hx). f_equal. rewrite gcv_in by (by apply el_fi). apply list_fmap_ext. intros _ W _. simpl. by rewrite zsumf_one.
        * rewrite (c_anet_all w fi h p Hi Hs an Hg Ha Hn Hd HW x Hf Hx). f_equal. change (sel_lays None) with (lays p). rewrite <- (vsum_sum (fun l W => gcv [x; l] W) Ws (lays p)) by done. f_equal.
          apply list_fmap_ext. intros k l Hk. apply gcv_in, el_fi; [done|done|]. by eapply elem_of_list_lookup_2.
    - assert (match lay with
                 | None => rmapM (fun l => match l with LBare y => Ok y | LTup _ => Err AssertionError end) (mlayers p)
                 | Some l => Ok [l] end = Ok (sel_lays lay)) as ->.
      { destruct lay as [l|]; [done|]. rewrite mlayers_eq. simpl. generalize (lays p). intros L. induction L as [|l L IH]; [done|]. change (LBare <$> l :: L) with (LBare l :: (LBare <$> L)).
        cbn [rmapM rbind]. by rewrite IH. }
      cbn [rbind].
      rewrite (rmapM_Ok_iff _ (fun l => (fun x => gcv [x; l] <$> Ws) <$> sel_nodes node)).
      2:{ intros l Hl%HlI. apply rmapM_Ok_iff. intros x _. by apply gcv_bf. }
      cbn [rbind]. f_equal. change (foldl vadd (replicate 10 0) ?v) with (vsum v).
      rewrite <- (vsum_sum gcv Ws) by done. f_equal. unfold tgrid. clear. generalize (sel_lays lay). intros L. induction L as [|l L IH]; [done|].
      change ((l :: L) ≫= ?f) with (f l ++ (L ≫= f)). cbn [fmap list_fmap concat]. cbv beta. rewrite fmap_app, <- IH, <- list_fmap_compose. done.
  Qed.
End Agg2.
