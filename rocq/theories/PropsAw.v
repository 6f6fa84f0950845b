(** * Alternating-walk clustering coefficients (C58) *)
From Verif Require Import Cc CcSpec PropsNet PropsMpx PropsTrans PropsMpxEdges NetEdges NetIter TransFacts MpxIter MpxEdges CcFacts CcAgg CcBarrett PropsCc.
From Coq Require Import QArith.Qpower Lqa.
Open Scope Z_scope.

(** ** Specification *)
(** [q] is the fraction [t/d] of counts, and 0 when there is nothing to count. *)
Definition fraction (q : Q) (t d : Z) : Prop := 0 <= t <= d /\ (q * inject_Z d == inject_Z t)%Q /\ (d = 0 -> (q == 0)%Q).
(** The closed walks along the words [W] from the node-layers [S], summed. *)
Definition closed (V S : list nl) (Ws : list (list (nl -> nl -> Z))) : Z := zsumf (fun W => zsumf (fun a => mprod V W a a) S) Ws.
(** The walks of the three coefficients: inside one layer, over two layers and over three
    layers; [M] is the step that closes the triangle. *)
Definition walks1 {M : Type} (A C X : M) : list (list M) := [[A; X; A]].
Definition walks2 {M : Type} (A C X : M) : list (list M) := [[A; X; C; A; C]; [A; C; X; A; C]; [A; C; X; C; A]].
Definition walks3 {M : Type} (A C X : M) : list (list M) := [[A; C; X; C; A; C]].

(** What the functions return for the node-layers [S]: [vec] with [returnCVector], [val] with
    the weights given and [returnCVector] false.  With three weights the value is the
    weighted sum of the coefficients; with two costs it is one fraction of weighted counts. *)
Definition weighted (a b : Q) (k1 k2 k3 : Z) : Q := (a ^ 3 * inject_Z k1 + a * b ^ 2 * inject_Z k2 + b ^ 3 * inject_Z k3)%Q.
Definition counts_spec (t1 d1 t2 d2 t3 d3 : Z) (vec : res (Q * Q * Q)) (val : Q -> Q -> option Q -> res Q) : Prop :=
  (exists c1 c2 c3, vec = Ok (c1, c2, c3) /\ fraction c1 t1 d1 /\ fraction c2 t2 d2 /\ fraction c3 t3 d3 /\
    forall w1 w2 w3, exists q, val w1 w2 (Some w3) = Ok q /\ (q == w1 * c1 + w2 * c2 + w3 * c3)%Q) /\
  forall a b, exists q, val a b None = Ok q /\
    let t := weighted a b t1 t2 t3 in let d := weighted a b d1 d2 d3 in
    (~ d == 0 -> q * d == t)%Q /\ (d == 0 -> q == 0)%Q /\ (0 <= a -> 0 <= b -> 0 <= q <= 1)%Q.
Definition aw_spec (V : list nl) (A C F : nl -> nl -> Z) (S : list nl) : res (Q * Q * Q) -> (Q -> Q -> option Q -> res Q) -> Prop :=
  counts_spec (closed V S (walks1 A C A)) (closed V S (walks1 A C F)) (closed V S (walks2 A C A)) (closed V S (walks2 A C F))
    (closed V S (walks3 A C A)) (closed V S (walks3 A C F)).
(** [gcc_moreno2_seplayers] counts the walks that can be walked in two directions twice. *)
Definition moreno2 {M : Type} (A C X : M) : list (list M) :=
  [[A; X; C; A; C]; [A; X; C; A; C]; [A; C; X; A; C]; [A; C; X; A; C]; [A; C; X; C; A]].
Definition moreno3 {M : Type} (A C X : M) : list (list M) := [[A; C; X; C; A; C]; [A; C; X; C; A; C]].

(** ** Facts *)
Lemma frac_ratio0 t d : 0 <= t <= d -> fraction (ratio0 t d) t d.
Proof.
  intros Ht. split; [done|]. unfold ratio0. destruct (decide (d = 0)) as [->|Hd].
  - split; [|done]. assert (t = 0) as -> by lia. reflexivity.
  - split; [|done]. field. intros E. apply Hd. by apply (inject_Z_injective d 0).
Qed.
Lemma fraction_unit q t d : fraction q t d -> (0 <= q <= 1)%Q.
Proof.
  intros (Ht & Hq & H0). destruct (decide (d = 0)) as [E|E]; [specialize (H0 E); split; lra|].
  assert (0 < inject_Z d)%Q as Hd by (change 0%Q with (inject_Z 0); rewrite <- Zlt_Qlt; lia).
  assert (0 <= inject_Z t <= inject_Z d)%Q as [Ht1 Ht2] by (change 0%Q with (inject_Z 0); rewrite <- !Zle_Qle; lia).
  split.
  - apply (Qmult_lt_0_le_reg_r _ _ _ Hd). rewrite Hq. lra.
  - apply (Qmult_lt_0_le_reg_r _ _ _ Hd). rewrite Hq. lra.
Qed.
Lemma mprod_le V Ws1 Ws2 : Forall2 (fun M N : nl -> nl -> Z => forall a b, a ∈ V -> b ∈ V -> 0 <= M a b <= N a b) Ws1 Ws2 ->
  forall a b, a ∈ V -> 0 <= mprod V Ws1 a b <= mprod V Ws2 a b.
Proof.
  induction 1 as [|M N Ws1 Ws2 HMN _ IH]; intros a b Ha; simpl; [destruct (decide (a = b)); lia|]. unfold mmul. split.
  - apply zsumf_nonneg. intros c Hc. specialize (HMN a c Ha Hc). specialize (IH c b Hc). nia.
  - apply zsumf_le. intros c Hc. specialize (HMN a c Ha Hc). specialize (IH c b Hc). nia.
Qed.
Section Bounds.
  Context (w : Z) (fi : bool) (h : list call) (p : mpx) (Hh : mhist [CCat w] false 0 fi h p) (Hw : w <> 0) (Hs : no_loops p).
  Let Hi : pinv [CCat w] false 0 fi h p := mhist_inv _ _ _ _ _ _ Hh.
  Context (V : list nl) (A C F : nl -> nl -> Z) (HV : lists_exactly V (mexists p)).
  Context (HA : indicates (stepA p) A) (HC : indicates (stepC p) C) (HF : indicates (stepF p) F).
  Lemma ind_pos P M : indicates P M -> forall a b, 0 <= M a b <= M a b.
  Proof. intros H a b. destruct (H a b) as [[_ ->]|[_ ->]]; lia. Qed.
  Lemma A_le_F a b : a ∈ V -> b ∈ V -> 0 <= A a b <= F a b.
  Proof.
    intros Ha%HV Hb%HV. destruct (ex_pair w fi h p Hh a Ha) as (x & l & ->), (ex_pair w fi h p Hh b Hb) as (y & l2 & ->).
    rewrite (A_eq w fi h p Hi Hs A HA). rewrite (F_eq w fi h p Hi F HF) by (by apply (el_1 w fi h p Hi)). unfold ind.
    destruct (decide (l = l2)); [|lia]. destruct (bl_01 p l x y) as [->|E]; [destruct (decide (y <> x)); lia|].
    rewrite E. destruct (decide (y <> x)) as [|Hyx]; [lia|]. apply dec_stable in Hyx. subst y. rewrite (bl_self p Hs) in E. lia.
  Qed.
  Lemma closed_le S Ws1 Ws2 : (forall a, a ∈ S -> a ∈ V) -> Forall2 (Forall2 (fun M N : nl -> nl -> Z => forall a b, a ∈ V -> b ∈ V -> 0 <= M a b <= N a b)) Ws1 Ws2 ->
    0 <= closed V S Ws1 <= closed V S Ws2.
  Proof.
    intros HS. induction 1 as [|W1 W2 Ws1 Ws2 HW _ IH]; [unfold closed; rewrite zsumf_nil; lia|]. unfold closed in *. rewrite !zsumf_cons.
    assert (0 <= zsumf (fun a => mprod V W1 a a) S <= zsumf (fun a => mprod V W2 a a) S); [|lia].
    split; [apply zsumf_nonneg|apply zsumf_le]; intros a Ha; by apply (mprod_le V W1 W2 HW), HS.
  Qed.
  Lemma closed_bounds S : (forall a, a ∈ S -> a ∈ V) ->
    0 <= closed V S (walks1 A C A) <= closed V S (walks1 A C F) /\ 0 <= closed V S (walks2 A C A) <= closed V S (walks2 A C F) /\
    0 <= closed V S (walks3 A C A) <= closed V S (walks3 A C F) /\
    0 <= closed V S (moreno2 A C A) <= closed V S (moreno2 A C F) /\ 0 <= closed V S (moreno3 A C A) <= closed V S (moreno3 A C F).
  Proof.
    intros HS. pose proof (fun a b (_ : a ∈ V) (_ : b ∈ V) => ind_pos _ _ HA a b) as PA. pose proof (fun a b (_ : a ∈ V) (_ : b ∈ V) => ind_pos _ _ HC a b) as PC.
    pose proof A_le_F as AF. split; [|split; [|split; [|split]]]; apply closed_le; try done; unfold walks1, walks2, walks3, moreno2, moreno3; repeat first [exact PA|exact PC|exact AF|constructor].
  Qed.
End Bounds.

Definition totals (V : list nl) (A C F : nl -> nl -> Z) (S : list nl) : Z * Z * Z * (Z * Z * Z) :=
  (closed V S (walks1 A C A), closed V S (walks2 A C A), closed V S (walks3 A C A),
   (closed V S (walks1 A C F), closed V S (walks2 A C F), closed V S (walks3 A C F))).
Lemma aw_totals_words V A C F S : aw_totals ((fun W => zsumf (fun a => mprod V W a a) S) <$> cycle_words A C F) = totals V A C F S.
Proof.
  unfold totals, closed, walks1, walks2, walks3. rewrite !zsumf_cons, !zsumf_nil. unfold cycle_words.
  change ((fun W => zsumf (fun a => mprod V W a a) S) <$> ?L) with (map (fun W => zsumf (fun a => mprod V W a a) S) L). cbn [map aw_totals].
  rewrite !Z.add_0_r, !Z.add_assoc. done.
Qed.
Lemma Qsum3_le a b t1 t2 t3 d1 d2 d3 : (0 <= a)%Q -> (0 <= b)%Q -> 0 <= t1 <= d1 -> 0 <= t2 <= d2 -> 0 <= t3 <= d3 ->
  (0 <= weighted a b t1 t2 t3 /\ weighted a b t1 t2 t3 <= weighted a b d1 d2 d3)%Q.
Proof.
  intros Ha Hb H1 H2 H3. unfold weighted.
  assert (0 <= a ^ 3)%Q as Pa by (by apply Qpower_pos). assert (0 <= b ^ 3)%Q as Pb by (by apply Qpower_pos).
  assert (0 <= a * b ^ 2)%Q as Pab by (apply Qmult_le_0_compat; [done|by apply Qpower_pos]).
  assert (forall c t d, (0 <= c)%Q -> 0 <= t <= d -> (0 <= c * inject_Z t /\ c * inject_Z t <= c * inject_Z d)%Q) as Hc.
  { intros c t d Hc Ht. assert (0 <= inject_Z t)%Q by (change 0%Q with (inject_Z 0); rewrite <- Zle_Qle; lia). split; [by apply Qmult_le_0_compat|].
    rewrite !(Qmult_comm c). apply Qmult_le_compat_r; [|done]. rewrite <- Zle_Qle. lia. }
  destruct (Hc _ _ _ Pa H1), (Hc _ _ _ Pab H2), (Hc _ _ _ Pb H3). split; lra.
Qed.
Lemma counts_spec_totals t1 d1 t2 d2 t3 d3 v vec val : aw_totals v = (t1, t2, t3, (d1, d2, d3)) ->
  0 <= t1 <= d1 -> 0 <= t2 <= d2 -> 0 <= t3 <= d3 ->
  vec = Ok (aw_vector v) -> (forall w1 w2 w3, val w1 w2 w3 = Ok (aw_value w1 w2 w3 v)) -> counts_spec t1 d1 t2 d2 t3 d3 vec val.
Proof.
  intros Hv B1 B2 B3 -> Hval. unfold counts_spec. unfold aw_vector. rewrite Hv. split.
  - do 3 eexists. split; [done|]. split; [by apply frac_ratio0|]. split; [by apply frac_ratio0|]. split; [by apply frac_ratio0|].
    intros w1 w2 w3. eexists. split; [apply Hval|]. unfold aw_value. rewrite Hv. reflexivity.
  - intros a b. eexists. split; [apply Hval|]. unfold aw_value. rewrite Hv. cbv zeta.
    set (t := weighted a b t1 t2 t3). set (d := weighted a b d1 d2 d3).
    assert (inject_Z d1 * (a * a * a) + inject_Z d2 * a * b * b + inject_Z d3 * (b * b * b) == d)%Q as Hd by (unfold d, weighted; ring).
    assert (inject_Z t1 * (a * a * a) + inject_Z t2 * a * b * b + inject_Z t3 * (b * b * b) == t)%Q as Ht by (unfold t, weighted; ring).
    destruct (Qeq_bool _ _) eqn:E.
    + apply Qeq_bool_iff in E. rewrite Hd in E. split; [done|]. split; [done|]. intros _ _. split; lra.
    + apply Qeq_bool_neq in E. rewrite Hd in E. assert (~ d == 0)%Q as E' by done. split; [intros _; rewrite Hd, Ht; by field|]. split; [done|]. intros Ha Hb.
      destruct (Qsum3_le a b _ _ _ _ _ _ Ha Hb B1 B2 B3) as [P1 P2]. fold t in P1, P2. fold d in P2. rewrite Hd, Ht.
      assert (0 < d)%Q as P0 by (destruct (Qlt_le_dec 0 d); [done|exfalso; apply E'; lra]).
      split; [by apply Qle_shift_div_l; lra|apply Qle_shift_div_r; lra].
Qed.

(** ** C58 *)
Section C58.
  Context (w : Z) (fi : bool) (h : list call) (p : mpx) (Hh : mhist [CCat w] false 0 fi h p) (Hw : w <> 0) (Hs : no_loops p).
  Context (V : list nl) (A C F : nl -> nl -> Z) (HV : lists_exactly V (mexists p)).
  Context (HA : indicates (stepA p) A) (HC : indicates (stepC p) C) (HF : indicates (stepF p) F).
  Lemma aw_general node lay anet S : (forall x, node = Some x -> mhas p 0 x) -> (forall l, lay = Some l -> mhas p 1 l) ->
    (forall an, anet = Some an -> overlap_net p an) -> (fi = true -> node = None -> anet = None -> weights p (fun v => v = 0 \/ v = 1)) ->
    lists_exactly S (fun a => mexists p a /\ (forall x, node = Some x -> a !! 0%nat = Some x) /\ (forall l, lay = Some l -> a !! 1%nat = Some l)) ->
    aw_spec V A C F S (rmap aw_vector (elementary_cycles p node lay anet)) (fun w1 w2 w3 => rmap (aw_value w1 w2 w3) (elementary_cycles p node lay anet)).
  Proof.
    intros H1 H2 H3 H4 HS. rewrite (C42_elementary_cycles w fi h p node lay anet V A C F S Hh Hw Hs HV HA HC HF H1 H2 H3 H4 HS).
    assert (forall a, a ∈ S -> a ∈ V) as HSV by (by intros a [? _]%HS; apply HV).
    destruct (closed_bounds w fi h p Hh Hs V A C F HV HA HC HF S HSV) as (B1 & B2 & B3 & _).
    eapply counts_spec_totals; [apply aw_totals_words|done..].
  Qed.
  Lemma has_lay l : mhas p 1 l <-> l ∈ lays p.
  Proof.
    pose proof (mhist_inv _ _ _ _ _ _ Hh) as Hi. rewrite (lays_psl w fi h p Hi). unfold mhas, mget_layers, psl.
    destruct (mslices p !! 1%nat) as [s|]; [|split; [by intros (? & ? & _)|by intros (? & ? & _)]]. split; intros (? & [= <-] & ?); eauto.
  Qed.
  Lemma has_node x : mhas p 0 x <-> x ∈ mnodes p.
  Proof.
    rewrite mnodes_psl. unfold mhas, mget_layers, psl.
    destruct (mslices p !! 0%nat) as [s|]; [|split; [by intros (? & ? & _)|by intros (? & ? & _)]]. split; intros (? & [= <-] & ?); eauto.
  Qed.
  Lemma sel_one x l : mexists p [x; l] ->
    lists_exactly [[x; l]] (fun a => mexists p a /\ (forall y, Some x = Some y -> a !! 0%nat = Some y) /\ (forall k, Some l = Some k -> a !! 1%nat = Some k)).
  Proof.
    intros Hx. split; [apply NoDup_singleton|]. intros a. rewrite elem_of_list_singleton. split.
    - intros ->. split; [done|]. split; [by intros y [= ->]|by intros y [= ->]].
    - intros (Ha & H0 & H1). destruct (ex_pair w fi h p Hh a Ha) as (y & k & ->). specialize (H0 x eq_refl). specialize (H1 l eq_refl).
      injection H0 as ->. injection H1 as ->. done.
  Qed.
  Lemma aw_local x l an : mexists p [x; l] -> aw_spec V A C F [[x; l]] (lcc_aw_vector p x l an) (fun w1 w2 w3 => lcc_aw p x l w1 w2 w3 an).
  Proof.
    intros Hx. pose proof (mhist_inv _ _ _ _ _ _ Hh) as Hi. pose proof Hx as He%(el_1 w fi h p Hi). unfold lcc_aw_vector, lcc_aw.
    pose proof (el_in w fi h p Hi x l He) as [Hx0 Hx1].
    change (elementary_cycles p (Some x) (Some l) an) with (elementary_cycles p (Some x) (Some l) None). apply aw_general; [| |done|done|].
    - intros y [= <-]. by apply has_node.
    - intros y [= <-]. by apply has_lay.
    - by apply sel_one.
  Qed.
  Lemma aw_node x an S : mhas p 0 x -> (forall n, an = Some n -> overlap_net p n) -> lists_exactly S (fun a => mexists p a /\ a !! 0%nat = Some x) ->
    aw_spec V A C F S (sncc_aw_vector p x an) (fun w1 w2 w3 => sncc_aw p x w1 w2 w3 an).
  Proof.
    intros Hx Han HS. unfold sncc_aw_vector, sncc_aw. apply aw_general; [by intros y [= <-]|done|done|done|]. eapply lists_exactly_iff; [|exact HS].
    intros a. split.
    - intros [Ha H0]. split; [done|]. split; [by intros y [= <-]|done].
    - intros (Ha & H0 & _). split; [done|]. by apply H0.
  Qed.
  Lemma aw_global S : (fi = true -> weights p (fun v => v = 0 \/ v = 1)) -> lists_exactly S (mexists p) ->
    aw_spec V A C F S (gcc_aw_vector p) (gcc_aw p).
  Proof.
    intros Hun HS. unfold gcc_aw_vector, gcc_aw. apply (aw_general None None None); [done|done|done|by intros ? _ _; apply Hun|].
    eapply lists_exactly_iff; [|exact HS]. intros a. split; [done|by intros [? _]].
  Qed.
  (** The loop over the layers of one node. *)
  Lemma sn_sum x S : lists_exactly S (fun a => mexists p a /\ a !! 0%nat = Some x) ->
    sn_cycles p x = Ok ((fun W => zsumf (fun a => mprod V W a a) S) <$> cycle_words A C F).
  Proof.
    intros HS. pose proof (mhist_inv _ _ _ _ _ _ Hh) as Hi. unfold sn_cycles. rewrite (layers1_eq w fi h p Hi). cbn [rbind].
    rewrite (rmapM_Ok_iff _ (fun l => gcv V [x; l] <$> cycle_words A C F)).
    2:{ intros l Hl. by apply (gcv_bf w fi h p Hh Hw Hs V A C F HV HA HC HF). }
    cbn [rbind]. f_equal. change (foldl vadd (replicate 10 0) ?v) with (vsum v). rewrite (vsum_sum (fun l W => gcv V [x; l] W)) by done.
    apply list_fmap_ext. intros _ W _. rewrite <- (gcv_sum p V HV W (tgrid [x] (lays p)) S).
    - rewrite zsumf_tgrid, zsumf_one. done.
    - apply NoDup_tgrid; [apply NoDup_singleton|apply (NoDup_lays w fi h p Hi)].
    - eapply lists_exactly_iff; [|exact HS]. intros a. split.
      + intros [Ha H0]. split; [done|]. destruct (ex_pair w fi h p Hh a Ha) as (y & l & ->). injection H0 as ->. apply elem_of_tgrid. exists x, l. split; [done|].
        split; [by apply elem_of_list_singleton|]. by apply (el_1 w fi h p Hi), (el_in w fi h p Hi) in Ha as [_ ?].
      + intros [Ha (y & l & -> & ->%elem_of_list_singleton & _)%elem_of_tgrid]. done.
  Qed.
  (** The loop over all node-layers. *)
  Definition vnodes (l : name) : list name := match pA p (LBare l) with Some m => net_nodes m | None => [] end.
  Definition nlS : list nl := lays p ≫= fun l => (fun x => [x; l]) <$> vnodes l.
  Lemma vnodes_el x l : l ∈ lays p -> x ∈ vnodes l <-> el p x l = 1.
  Proof.
    pose proof (mhist_inv _ _ _ _ _ _ Hh) as Hi. intros [m Hm]%(lay_view w fi h p Hi). unfold vnodes. rewrite Hm. by rewrite (el_view w fi h p Hi x l m Hm).
  Qed.
  Lemma nlS_lists : lists_exactly nlS (mexists p).
  Proof.
    pose proof (mhist_inv _ _ _ _ _ _ Hh) as Hi. split.
    - unfold nlS. assert (NoDup (lays p)) as HL by apply (NoDup_lays w fi h p Hi). assert (forall l, l ∈ lays p -> NoDup (vnodes l)) as HN.
      { intros l [m Hm]%(lay_view w fi h p Hi). unfold vnodes. rewrite Hm. destruct (view_good w fi h p Hi l m Hm) as (Hg & Ha & _). by apply m_nodes_NoDup. }
      revert HL HN. generalize (lays p). intros L. induction L as [|l L IH]; intros HL HN; [constructor|]. apply NoDup_cons in HL as [Hl HL].
      change ((l :: L) ≫= ?f) with (f l ++ (L ≫= f)). apply NoDup_app. split; [|split].
      + apply NoDup_fmap; [by intros ? ? [= ->]|]. apply HN. by left.
      + intros a (x & -> & _)%elem_of_list_fmap (l2 & (y & [= _ <-] & _)%elem_of_list_fmap & ?)%elem_of_list_bind. done.
      + apply IH; [done|]. intros. apply HN. by right.
    - intros a. unfold nlS. rewrite elem_of_list_bind. split.
      + intros (l & (x & -> & Hx)%elem_of_list_fmap & Hl). apply (el_1 w fi h p Hi). by apply vnodes_el.
      + intros Ha. destruct (ex_pair w fi h p Hh a Ha) as (x & l & ->). apply (el_1 w fi h p Hi) in Ha. pose proof (el_in w fi h p Hi _ _ Ha) as [_ Hl].
        exists l. split; [|done]. apply elem_of_list_fmap. exists x. split; [done|]. by apply vnodes_el.
  Qed.
  Lemma over_nl {B} (f : name -> name -> res B) (g : nl -> B) : (forall x l, mexists p [x; l] -> f x l = Ok (g [x; l])) ->
    over_node_layers p f = Ok (g <$> nlS).
  Proof.
    intros Hf. pose proof (mhist_inv _ _ _ _ _ _ Hh) as Hi. unfold over_node_layers. rewrite (layers1_eq w fi h p Hi). cbn [rbind].
    rewrite (rmapM_Ok_iff _ (fun l => (fun x => g [x; l]) <$> vnodes l)).
    - cbn [rbind]. f_equal. unfold nlS. generalize (lays p). intros L. induction L as [|l L IH]; [done|].
      change ((l :: L) ≫= ?f) with (f l ++ (L ≫= f)). cbn [fmap list_fmap concat]. cbv beta. rewrite fmap_app, <- list_fmap_compose. rewrite <- IH. done.
    - intros l Hl. destruct (intra_eq w fi h p Hi l Hl) as (m & -> & Hm). cbn [rbind]. unfold vnodes. rewrite Hm. apply rmapM_Ok_iff.
      intros x Hx. apply Hf, (el_1 w fi h p Hi). apply vnodes_el; [done|]. unfold vnodes. by rewrite Hm.
  Qed.
End C58.

(** ** C58 *)
(** [lcc_aw(net,node,layer)], whatever the argument [anet]. *)
Theorem C58_local w fi h p V A C F x l an : mhist [CCat w] false 0 fi h p -> w <> 0 -> no_loops p ->
  lists_exactly V (mexists p) -> indicates (stepA p) A -> indicates (stepC p) C -> indicates (stepF p) F ->
  mexists p [x; l] -> aw_spec V A C F [[x; l]] (lcc_aw_vector p x l an) (fun w1 w2 w3 => lcc_aw p x l w1 w2 w3 an).
Proof. intros. by apply (aw_local w fi h). Qed.
(** [sncc_aw(net,node)], [S] listing the node's replicas, with or without [anet]. *)
Theorem C58_node w fi h p V A C F x an S : mhist [CCat w] false 0 fi h p -> w <> 0 -> no_loops p ->
  lists_exactly V (mexists p) -> indicates (stepA p) A -> indicates (stepC p) C -> indicates (stepF p) F ->
  mhas p 0 x -> (forall n, an = Some n -> overlap_net p n) -> lists_exactly S (fun a => mexists p a /\ a !! 0%nat = Some x) ->
  aw_spec V A C F S (sncc_aw_vector p x an) (fun w1 w2 w3 => sncc_aw p x w1 w2 w3 an).
Proof. intros. by apply (aw_node w fi h). Qed.
(** [gcc_aw(net)]; a fully interconnected network must have unit weights. *)
Theorem C58_global w fi h p V A C F : mhist [CCat w] false 0 fi h p -> w <> 0 -> no_loops p ->
  lists_exactly V (mexists p) -> indicates (stepA p) A -> indicates (stepC p) C -> indicates (stepF p) F ->
  (fi = true -> weights p (fun v => v = 0 \/ v = 1)) -> aw_spec V A C F V (gcc_aw_vector p) (gcc_aw p).
Proof. intros. by apply (aw_global w fi h). Qed.
(** All coefficients lie between 0 and 1. *)
Theorem C58_unit_interval V A C F S vec val : aw_spec V A C F S vec val ->
  exists c1 c2 c3, vec = Ok (c1, c2, c3) /\ (0 <= c1 <= 1 /\ 0 <= c2 <= 1 /\ 0 <= c3 <= 1)%Q.
Proof.
  intros [(c1 & c2 & c3 & E & H1 & H2 & H3 & _) _]. exists c1, c2, c3. split; [done|]. split; [|split]; eapply fraction_unit; eassumption.
Qed.
(** [sncc_aw_layercost(net,node,a,b)] is [sncc_aw] with two costs. *)
Theorem C58_layercost w fi h p x an a b : mhist [CCat w] false 0 fi h p -> w <> 0 -> no_loops p ->
  mhas p 0 x -> (forall n, an = Some n -> overlap_net p n) ->
  exists q q', sncc_aw_layercost p x a b = Ok q /\ sncc_aw p x a b None an = Ok q' /\ (q == q')%Q.
Proof.
  intros Hh Hw Hs Hx Han. destruct (matrices_exist w fi h p Hh Hw) as (V & A & C & F & HV & HA & HC & HF).
  assert (exists S, lists_exactly S (fun a => mexists p a /\ a !! 0%nat = Some x)) as [S HS].
  { exists (filter (fun a => a !! 0%nat = Some x) V). destruct HV as [HN HV]. split; [by apply NoDup_filter|]. intros c. rewrite elem_of_list_filter, HV. tauto. }
  unfold sncc_aw_layercost, sncc_aw. rewrite (sn_sum w fi h p Hh Hw Hs V A C F HV HA HC HF x S HS). cbn [rbind].
  rewrite (C42_elementary_cycles w fi h p (Some x) None an V A C F S Hh Hw Hs HV HA HC HF).
  - cbn [rmap rbind]. unfold aw_value. rewrite aw_totals_words. unfold totals. do 2 eexists. split; [done|]. split; [done|].
    set (d := (_ + inject_Z (closed V S (walks3 A C F)) * _)%Q). set (t := (_ + inject_Z (closed V S (walks3 A C A)) * _)%Q).
    set (d' := (_ + _ * inject_Z (closed V S (walks3 A C F)))%Q). set (t' := (_ + _ * inject_Z (closed V S (walks3 A C A)))%Q).
    assert (d == d')%Q as Hd by (unfold d, d'; ring). assert (t == t')%Q as Ht by (unfold t, t'; ring).
    rewrite Hd. destruct (Qeq_bool d' 0); [done|]. by rewrite Hd, Ht.
  - by intros y [= <-].
  - done.
  - done.
  - done.
  - eapply lists_exactly_iff; [|exact HS]. intros c. split.
    + intros [Ha H0]. split; [done|]. split; [by intros y [= <-]|done].
    + intros (Ha & H0 & _). split; [done|]. by apply H0.
Qed.
(** [sncc_aw_seplayers(net,node,w1,w2,w3)]: undefined when a coefficient of positive weight
    has nothing to count, and the weighted sum of the coefficients otherwise. *)
Theorem C58_seplayers w fi h p V A C F x S w1 w2 w3 : mhist [CCat w] false 0 fi h p -> w <> 0 -> no_loops p ->
  lists_exactly V (mexists p) -> indicates (stepA p) A -> indicates (stepC p) C -> indicates (stepF p) F ->
  lists_exactly S (fun a => mexists p a /\ a !! 0%nat = Some x) ->
  let den walks := closed V S (walks A C F) in let num walks := closed V S (walks A C A) in
  let undefined := (0 < w1 /\ den walks1 = 0%Z \/ 0 < w2 /\ den walks2 = 0%Z \/ 0 < w3 /\ den walks3 = 0%Z)%Q in
  (undefined -> sncc_aw_seplayers p x w1 w2 w3 = Ok None) /\
  (~ undefined -> exists q c1 c2 c3, sncc_aw_seplayers p x w1 w2 w3 = Ok (Some q) /\ (q == w1 * c1 + w2 * c2 + w3 * c3)%Q /\
     fraction c1 (num walks1) (den walks1) /\ fraction c2 (num walks2) (den walks2) /\ fraction c3 (num walks3) (den walks3)).
Proof.
  intros Hh Hw Hs HV HA HC HF HS den num undefined. unfold sncc_aw_seplayers. rewrite (sn_sum w fi h p Hh Hw Hs V A C F HV HA HC HF x S HS). cbn [rbind].
  rewrite aw_totals_words. unfold totals. cbv beta zeta.
  assert (forall a, a ∈ S -> a ∈ V) as HSV by (by intros a [? _]%HS; apply HV).
  destruct (closed_bounds w fi h p Hh Hs V A C F HV HA HC HF S HSV) as (B1 & B2 & B3 & _).
  set (part := fun (q : Q) (t d : Z) => if decide (d = 0) then if Qle_bool q 0 then Some 0%Q else None else Some (inject_Z t / inject_Z d)%Q).
  change (if decide (closed V S (walks1 A C F) = 0) then _ else _) with (part w1 (num walks1) (den walks1)).
  change (if decide (closed V S (walks2 A C F) = 0) then _ else _) with (part w2 (num walks2) (den walks2)).
  change (if decide (closed V S (walks3 A C F) = 0) then _ else _) with (part w3 (num walks3) (den walks3)).
  assert (forall q t d, 0 <= t <= d -> ((0 < q)%Q /\ d = 0 /\ part q t d = None) \/ (~ ((0 < q)%Q /\ d = 0) /\ exists c, part q t d = Some c /\ fraction c t d)) as Hp.
  { intros q t d Ht. unfold part. destruct (decide (d = 0)) as [Hd|Hd].
    - destruct (Qle_bool q 0) eqn:Eq.
      + apply Qle_bool_iff in Eq. right. split; [intros [? _]; lra|]. eexists. split; [done|]. split; [done|]. split; [|done].
        assert (t = 0) as -> by lia. subst d. reflexivity.
      + left. assert (~ q <= 0)%Q as Hq by (intros Hq%Qle_bool_iff; congruence). split; [lra|done].
    - right. split; [by intros [_ ?]|]. eexists. split; [done|]. pose proof (frac_ratio0 t d Ht) as Hr. unfold ratio0 in Hr. by rewrite decide_False in Hr by done. }
  fold (num walks1) (den walks1) in B1. fold (num walks2) (den walks2) in B2. fold (num walks3) (den walks3) in B3.
  destruct (Hp w1 _ _ B1) as [(P1 & P1' & ->)|(N1 & c1 & -> & F1)].
  { split; [done|]. intros Hn. exfalso. apply Hn. by left. }
  destruct (Hp w2 _ _ B2) as [(P1 & P1' & ->)|(N2 & c2 & -> & F2)].
  { split; [done|]. intros Hn. exfalso. apply Hn. right. by left. }
  destruct (Hp w3 _ _ B3) as [(P1 & P1' & ->)|(N3 & c3 & -> & F3)].
  { split; [done|]. intros Hn. exfalso. apply Hn. right. by right. }
  split.
  - unfold undefined. tauto.
  - intros _. do 4 eexists. split; [done|]. split; [reflexivity|]. done.
Qed.
(** [gcc_moreno2_seplayers(net,w1,w2,w3)]. *)
Theorem C58_moreno2 w fi h p V A C F : mhist [CCat w] false 0 fi h p -> w <> 0 -> no_loops p ->
  lists_exactly V (mexists p) -> indicates (stepA p) A -> indicates (stepC p) C -> indicates (stepF p) F ->
  exists vec, counts_spec (closed V V (walks1 A C A)) (closed V V (walks1 A C F)) (closed V V (moreno2 A C A)) (closed V V (moreno2 A C F))
    (closed V V (moreno3 A C A)) (closed V V (moreno3 A C F)) vec (gcc_moreno2_seplayers p).
Proof.
  intros Hh Hw Hs HV HA HC HF. pose proof (nlS_lists w fi h p Hh) as HL.
  assert (forall W, zsumf (fun a => mprod V W a a) (nlS p) = zsumf (fun a => mprod V W a a) V) as HVL.
  { intros W. apply zsumf_perm, NoDup_Permutation; [apply HL|apply HV|]. intros a. destruct HL as [_ HL], HV as [_ HV]. by rewrite HL, HV. }
  eexists. eapply (counts_spec_totals _ _ _ _ _ _ (foldl vadd (replicate 10 0) (moreno2_vector <$> ((fun a => (fun W => mprod V W a a) <$> cycle_words A C F) <$> nlS p)))).
  - rewrite <- list_fmap_compose. change (foldl vadd (replicate 10 0) ?v) with (vsum v).
    set (g := fun (a : nl) (W : Z * list (nl -> nl -> Z)) => W.1 * mprod V W.2 a a).
    set (Ws := zip [1; 2; 2; 1; 2; 1; 2; 2; 1; 2] (cycle_words A C F)).
    assert ((moreno2_vector ∘ (fun a => (fun W => mprod V W a a) <$> cycle_words A C F)) <$> nlS p = (fun a => g a <$> Ws) <$> nlS p) as ->.
    { apply list_fmap_ext. intros _ a _. unfold compose, Ws, cycle_words, g, moreno2_vector, zip, zip_with. cbn [fmap list_fmap fst snd]. by rewrite !Z.mul_1_l. }
    rewrite (vsum_sum g Ws) by done. unfold Ws, g, cycle_words, zip, zip_with. cbn [fmap list_fmap fst snd aw_totals].
    rewrite !zsumf_mul_l, !HVL. unfold closed, moreno2, moreno3, walks1. rewrite !zsumf_cons, !zsumf_nil. f_equal; [f_equal; [f_equal; [|]|]|f_equal; [f_equal|]]; lia.
  - by destruct (closed_bounds w fi h p Hh Hs V A C F HV HA HC HF V) as (? & ? & ? & ? & ?).
  - by destruct (closed_bounds w fi h p Hh Hs V A C F HV HA HC HF V) as (? & ? & ? & ? & ?).
  - by destruct (closed_bounds w fi h p Hh Hs V A C F HV HA HC HF V) as (? & ? & ? & ? & ?).
  - done.
  - intros w1 w2 w3. unfold gcc_moreno2_seplayers. rewrite (over_nl w fi h p Hh _ (fun a => (fun W => mprod V W a a) <$> cycle_words A C F)); [done|].
    intros x l Hx. by apply (C42_brute_force w fi h p x l V A C F).
Qed.
(** [avg_lcc_aw(net,...)] averages [lcc_aw] over the existing node-layers, and divides by
    zero when there are none. *)
Theorem C58_average w fi h p w1 w2 w3 : mhist [CCat w] false 0 fi h p -> w <> 0 -> no_loops p ->
  (forall a, ~ mexists p a) /\ avg_lcc_aw p w1 w2 w3 = Err ZeroDivisionError \/
  exists S L q, lists_exactly S (mexists p) /\ Forall2 (fun a c => exists x l, a = [x; l] /\ lcc_aw p x l w1 w2 w3 None = Ok c) S L /\
    avg_lcc_aw p w1 w2 w3 = Ok q /\ S <> [] /\ (q * inject_Z (Z.of_nat (length S)) == foldr Qplus 0 L)%Q.
Proof.
  intros Hh Hw Hs. pose proof (nlS_lists w fi h p Hh) as HL. destruct (matrices_exist w fi h p Hh Hw) as (V & A & C & F & HV & HA & HC & HF).
  set (g := fun a : nl => aw_value w1 w2 w3 ((fun W => mprod V W a a) <$> cycle_words A C F)).
  assert (forall x l, mexists p [x; l] -> lcc_aw p x l w1 w2 w3 None = Ok (g [x; l])) as Hg.
  { intros x l Hx. unfold lcc_aw. change (elementary_cycles p (Some x) (Some l) None) with (cc_cycle_vector_bf p x l). by rewrite (C42_brute_force w fi h p x l V A C F). }
  unfold avg_lcc_aw. rewrite (over_nl w fi h p Hh _ g Hg). cbn [rbind]. rewrite fmap_length. destruct (decide (nlS p = [])) as [E|E].
  - left. split; [|by rewrite E]. intros a Ha. apply HL in Ha. rewrite E in Ha. by apply not_elem_of_nil in Ha.
  - right. exists (nlS p), (g <$> nlS p). unfold fdiv.
    assert (~ inject_Z (Z.of_nat (length (nlS p))) == 0)%Q as Hn.
    { change 0%Q with (inject_Z 0). intros H. apply E, nil_length_inv, (Nat2Z.inj _ 0). by apply (proj1 (inject_Z_injective _ _) H). }
    destruct (Qeq_bool _ 0) eqn:E0; [by apply Qeq_bool_iff in E0|]. eexists. split; [done|]. split; [|split; [done|split; [done|unfold qsum; by field]]].
    apply Forall2_fmap_r, Forall_Forall2_diag, Forall_forall. intros a Ha. apply HL in Ha.
    destruct (ex_pair w fi h p Hh a Ha) as (x & l & ->). exists x, l. split; [done|]. by apply Hg.
Qed.
(** The average of [lcc_aw] with two non-negative costs lies between 0 and 1. *)
Theorem C58_average_unit w fi h p a b q : mhist [CCat w] false 0 fi h p -> w <> 0 -> no_loops p -> (0 <= a)%Q -> (0 <= b)%Q ->
  avg_lcc_aw p a b None = Ok q -> (0 <= q <= 1)%Q.
Proof.
  intros Hh Hw Hs Ha Hb E. destruct (C58_average w fi h p a b None Hh Hw Hs) as [[_ H]|(S & L & q' & HS & HF2 & Hq & Hne & Heq)]; [congruence|].
  rewrite E in Hq. injection Hq as <-. destruct (matrices_exist w fi h p Hh Hw) as (V & A & C & F & HV & HA & HC & HF).
  assert (Forall2 (fun _ c => (0 <= c <= 1)%Q) S L) as HU.
  { assert (forall c, c ∈ S -> mexists p c) as HSm by (intros c; apply HS). clear Hne Heq HS. induction HF2 as [|c v S L (x & l & -> & Hv) _ IH]; constructor.
    - destruct (C58_local w fi h p V A C F x l None Hh Hw Hs HV HA HC HF) as [_ Hl]; [apply HSm; by left|]. destruct (Hl a b) as (v' & Hv' & _ & _ & Hu).
      rewrite Hv in Hv'. injection Hv' as <-. by apply Hu.
    - apply IH. intros c Hc. apply HSm. by right. }
  assert (0 <= foldr Qplus 0 L /\ foldr Qplus 0 L <= inject_Z (Z.of_nat (length S)))%Q as [B1 B2].
  { clear -HU. induction HU as [|c v S L Hv _ IH]; [done|]. cbn [foldr length]. rewrite Nat2Z.inj_succ, <- Z.add_1_l, inject_Z_plus. change (inject_Z 1) with 1%Q. destruct IH. lra. }
  assert (0 < inject_Z (Z.of_nat (length S)))%Q as Hn.
  { change 0%Q with (inject_Z 0). rewrite <- Zlt_Qlt. destruct S; [done|simpl; lia]. }
  split; apply (Qmult_lt_0_le_reg_r _ _ _ Hn); rewrite Heq; lra.
Qed.
Print Assumptions C58_local.
Print Assumptions C58_node.
Print Assumptions C58_global.
Print Assumptions C58_unit_interval.
Print Assumptions C58_layercost.
Print Assumptions C58_seplayers.
Print Assumptions C58_moreno2.
Print Assumptions C58_average.
Print Assumptions C58_average_unit.
(** The network [exu] of C42_example meets the hypotheses (its matrices exist by
    C42_matrices_exist). *)
Example C58_example : exists c1 c2 c3 q, gcc_aw_vector exu.2 = Ok (c1, c2, c3) /\ (c1 == 0 /\ c2 == 18 # 32 /\ c3 == 6 # 12)%Q /\
  gcc_aw exu.2 (1 # 2) (1 # 2) None = Ok q /\ (q == 24 # 48)%Q.
Proof. do 4 eexists. split; [vm_compute; reflexivity|]. split; [by vm_compute|]. split; [vm_compute; reflexivity|]. by vm_compute. Qed.
