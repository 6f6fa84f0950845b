(** * Sums over lists of neighbours and the primitive calls of cc.py *)
From Verif Require Import Cc MpxIter NetIter MpxSpec CcSpec.
Open Scope Z_scope.

(** ** Sums *)
Lemma rsum_ok {A} (f : A -> res Z) (g : A -> Z) l : (forall x, x ∈ l -> f x = Ok (g x)) -> rsum f l = Ok (zsumf g l).
Proof.
  induction l as [|x l IH]; intros H; [done|]. cbn [rsum]. rewrite (H x) by left. cbn [rbind].
  rewrite IH; [done|]. intros y Hy. apply H. by right.
Qed.
Definition ind (P : Prop) `{Decision P} : Z := if decide P then 1 else 0.
Lemma ind_true (P : Prop) `{Decision P} : P -> ind P = 1.
Proof. intros. unfold ind. by rewrite decide_True. Qed.
Lemma ind_false (P : Prop) `{Decision P} : ~ P -> ind P = 0.
Proof. intros. unfold ind. by rewrite decide_False. Qed.
Lemma ind_01 (P : Prop) `{Decision P} : ind P = 0 \/ ind P = 1.
Proof. unfold ind. destruct (decide P); auto. Qed.
Lemma ind_iff (P Q : Prop) `{Decision P} `{Decision Q} : (P <-> Q) -> ind P = ind Q.
Proof. intros. unfold ind. destruct (decide P), (decide Q); tauto. Qed.

Lemma zsumf_mul_r {A} (c : Z) (f : A -> Z) l : zsumf (fun x => f x * c) l = zsumf f l * c.
Proof. induction l as [|x l IH]; [rewrite !zsumf_nil; lia|]. rewrite !zsumf_cons. lia. Qed.
Lemma zsumf_sub {A} (f g : A -> Z) l : zsumf (fun x => f x - g x) l = zsumf f l - zsumf g l.
Proof. induction l as [|x l IH]; [done|]. rewrite !zsumf_cons. lia. Qed.
Lemma zsumf_elem_le {A} (f : A -> Z) (l : list A) x : (forall y, 0 <= f y) -> x ∈ l -> f x <= zsumf f l.
Proof.
  intros Hf. induction 1 as [x l|x y l _ IH]; rewrite zsumf_cons; [|specialize (Hf y); lia].
  assert (0 <= zsumf f l); [|lia]. clear x. induction l as [|y l IH]; [done|]. rewrite zsumf_cons. specialize (Hf y). lia.
Qed.
(** Summing over a sublist is summing over the list with a 0/1 factor. *)
Lemma zsumf_sublist {A} `{EqDecision A} (g b : A -> Z) (L V : list A) : NoDup L -> NoDup V ->
  (forall x, x ∈ L -> x ∈ V /\ b x = 1) -> (forall x, x ∈ V -> x ∉ L -> b x = 0) ->
  zsumf g L = zsumf (fun x => b x * g x) V.
Proof.
  intros HL HV H1 H0. rewrite (zsumf_perm g L (filter (fun x => x ∈ L) V)).
  2:{ apply NoDup_same_perm; [done|by apply NoDup_filter|]. intros x. rewrite elem_of_list_filter. split; [|tauto].
      intros Hx. by destruct (H1 x Hx). }
  rewrite zsumf_filter. apply zsumf_ext. intros x Hx. destruct (decide (x ∈ L)) as [Hl|Hl].
  - destruct (H1 x Hl) as [_ ->]. lia.
  - rewrite (H0 x Hx Hl). lia.
Qed.
(** A sum with the factor [ind (x = a)]. *)
Lemma zsumf_point {A} `{EqDecision A} (f : A -> Z) (V : list A) a : NoDup V -> a ∈ V ->
  zsumf (fun x => ind (x = a) * f x) V = f a.
Proof.
  intros HV Ha. rewrite (zsumf_single _ V a HV Ha).
  - rewrite ind_true by done. lia.
  - intros x _ Hne. rewrite ind_false by done. lia.
Qed.
Lemma zsumf_point_out {A} `{EqDecision A} (f : A -> Z) (V : list A) a : a ∉ V ->
  zsumf (fun x => ind (x = a) * f x) V = 0.
Proof. intros Ha. apply zsumf_zero. intros x Hx. rewrite ind_false; [lia|]. by intros ->. Qed.
Lemma zsumf_skip {A} `{EqDecision A} (f : A -> Z) (V : list A) a : NoDup V ->
  zsumf (fun x => ind (x <> a) * f x) V = zsumf f V - (if decide (a ∈ V) then f a else 0).
Proof.
  intros HV. rewrite (zsumf_ext (fun x => ind (x <> a) * f x) (fun x => f x - ind (x = a) * f x)).
  2:{ intros x _. unfold ind. destruct (decide (x = a)), (decide (x <> a)); try done; lia. }
  rewrite zsumf_sub. destruct (decide (a ∈ V)); [by rewrite zsumf_point|rewrite zsumf_point_out by done; lia].
Qed.
(** Sums over unordered pairs. *)
Lemma zsumf_pairs2 {A} (f : A -> A -> Z) l : (forall x y, f x y = f y x) -> (forall x, x ∈ l -> f x x = 0) ->
  zsumf (fun x => zsumf (f x) l) l = 2 * zsumf (fun q => f (q.1) (q.2)) (pairs2 l).
Proof.
  intros Hs. induction l as [|x l IH]; intros H0; [done|]. cbn [pairs2]. rewrite zsumf_app, zsumf_cons, zsumf_cons, zsumf_fmap. cbn [fst snd].
  rewrite (zsumf_ext (fun y => zsumf (f y) (x :: l)) (fun y => f x y + zsumf (f y) l) l) by (intros y _; rewrite zsumf_cons; by rewrite Hs).
  rewrite zsumf_add, IH by (intros y Hy; apply H0; by right). rewrite (H0 x) by left.
  change (zsumf (fun y => f x y) l) with (zsumf (f x) l). lia.
Qed.
Lemma pairs2_elem {A} (l : list A) q : q ∈ pairs2 l -> q.1 ∈ l /\ q.2 ∈ l.
Proof.
  induction l as [|x l IH]; cbn [pairs2]; [by intros ?%elem_of_nil|]. rewrite elem_of_app. intros [(y & -> & Hy)%elem_of_list_fmap|Hq].
  - split; [left|by right].
  - destruct (IH Hq). split; by right.
Qed.
Lemma pairs2_ne {A} (l : list A) q : NoDup l -> q ∈ pairs2 l -> q.1 <> q.2.
Proof.
  induction l as [|x l IH]; cbn [pairs2]; intros Hn; [by intros ?%elem_of_nil|]. apply NoDup_cons in Hn as [Hx Hn].
  rewrite elem_of_app. intros [(y & -> & Hy)%elem_of_list_fmap|Hq]; [|by apply IH]. simpl. by intros ->.
Qed.
Lemma pairs2_short {A} (l : list A) : (length l < 2)%nat -> pairs2 l = [].
Proof. destruct l as [|x [|y l]]; simpl; [done|done|lia]. Qed.

(** Sums of vectors of ten counts. *)
Definition vsum (vs : list (list Z)) : list Z := foldl vadd (replicate 10 0) vs.
Lemma vsum10 {A} (f1 f2 f3 f4 f5 f6 f7 f8 f9 f10 : A -> Z) (L : list A) :
  vsum ((fun a => [f1 a; f2 a; f3 a; f4 a; f5 a; f6 a; f7 a; f8 a; f9 a; f10 a]) <$> L) =
  [zsumf f1 L; zsumf f2 L; zsumf f3 L; zsumf f4 L; zsumf f5 L; zsumf f6 L; zsumf f7 L; zsumf f8 L; zsumf f9 L; zsumf f10 L].
Proof.
  unfold vsum. assert (forall a1 a2 a3 a4 a5 a6 a7 a8 a9 a10,
    foldl vadd [a1; a2; a3; a4; a5; a6; a7; a8; a9; a10] ((fun a => [f1 a; f2 a; f3 a; f4 a; f5 a; f6 a; f7 a; f8 a; f9 a; f10 a]) <$> L) =
    [a1 + zsumf f1 L; a2 + zsumf f2 L; a3 + zsumf f3 L; a4 + zsumf f4 L; a5 + zsumf f5 L;
     a6 + zsumf f6 L; a7 + zsumf f7 L; a8 + zsumf f8 L; a9 + zsumf f9 L; a10 + zsumf f10 L]) as H; [|exact (H 0 0 0 0 0 0 0 0 0 0)].
  induction L as [|x L IH]; intros; cbn [fmap list_fmap foldl]; [rewrite !zsumf_nil, !Z.add_0_r; done|].
  cbn [vadd zip_with]. rewrite IH, !zsumf_cons, !Z.add_assoc. done.
Qed.
(** ** The primitive calls on a one-aspect undirected multiplex network with
    categorical couplings and without self-loops *)
Lemma length_filter_ne {A} `{EqDecision A} (ls : list A) x : NoDup ls -> x ∈ ls ->
  Z.of_nat (length (filter (fun y => y <> x) ls)) = Z.of_nat (length ls) - 1.
Proof.
  intros Hnd Hx. pose proof (zsumf_skip (fun _ => 1) ls x Hnd) as Hk. rewrite decide_True in Hk by done.
  rewrite zsumf_const in Hk.
  assert (Z.of_nat (length (filter (fun y => y <> x) ls)) = zsumf (fun y => ind (y <> x) * 1) ls) as ->; [|lia].
  clear. induction ls as [|y s IH]; [done|]. rewrite filter_cons, zsumf_cons. unfold ind at 1.
  destruct (decide (y <> x)); cbn [length]; lia.
Qed.
(** A dict of sets built by adding one element at a time. *)
Definition dval {K V} `{EqDecision K} (d : dict K (list V)) (k : K) : list V := default [] (dget d k).
Definition dinv {K V} `{EqDecision K} `{EqDecision V} (d : dict K (list V)) (R : V -> K -> Prop) : Prop :=
  NoDup (dkeys d) /\ (forall k, k ∈ dkeys d -> exists v, R v k) /\ forall k, NoDup (dval d k) /\ forall v, v ∈ dval d k <-> R v k.
Lemma dinv_foldl {K V} `{EqDecision K} `{EqDecision V} (i : V) (cs : list K) (d : dict K (list V)) R : dinv d R ->
  dinv (foldl (fun d k => dset d k (sadd i (default [] (dget d k)))) d cs) (fun v k => R v k \/ v = i /\ k ∈ cs).
Proof.
  revert d R. induction cs as [|c cs IH]; intros d R (Hk & Hr & Hd); cbn [foldl].
  - split; [done|]. split.
    + intros k (v & Hv)%Hr. eauto.
    + intros k. split; [apply Hd|]. intros v. rewrite (proj2 (Hd k)). split; [by left|]. intros [?|[_ ?%elem_of_nil]]; done.
  - assert (dinv (dset d c (sadd i (default [] (dget d c)))) (fun v k => R v k \/ v = i /\ k = c)) as H1.
    { split; [by apply NoDup_dset|]. split.
      - intros k [->|(v & Hv)%Hr]%elem_of_dkeys_dset; eauto.
      - intros k. unfold dval. rewrite dget_dset. destruct (decide (k = c)) as [->|Hne]; cbn [from_option]; change (id ?x) with x.
        + split; [apply NoDup_sadd, Hd|]. intros v. rewrite elem_of_sadd. change (default [] (dget d c)) with (dval d c). rewrite (proj2 (Hd c)).
          split; [intros [->|?]; auto|]. intros [?|[-> _]]; auto.
        + split; [apply Hd|]. intros v. change (default [] (dget d k)) with (dval d k). rewrite (proj2 (Hd k)). split; [by left|]. intros [?|[_ ?]]; done. }
    apply IH in H1. destruct H1 as (H1 & H2 & H3). split; [done|]. split.
    + intros k (v & Hv)%H2. exists v. rewrite elem_of_cons. destruct Hv as [[?|[-> ->]]|[-> ?]]; auto.
    + intros k. split; [apply H3|]. intros v. rewrite (proj2 (H3 k)), elem_of_cons. split.
      * intros [[?|[-> ->]]|[-> ?]]; auto.
      * intros [?|[-> [->|?]]]; auto.
Qed.
Lemma dsum_keys {K V} `{EqDecision K} (g : list V -> Z) (d : dict K (list V)) (Ks : list K) : NoDup (dkeys d) -> NoDup Ks ->
  (forall k, k ∈ dkeys d -> k ∈ Ks) -> g [] = 0 -> zsumf (fun kv => g (kv.2)) d = zsumf (fun k => g (dval d k)) Ks.
Proof.
  intros Hd HK Hin H0.
  rewrite (zsumf_ext (fun kv : K * list V => g (kv.2)) (fun kv => g (dval d (kv.1)))).
  2:{ intros [k v] Hkv. apply (dget_elem_of d k v Hd) in Hkv. simpl. unfold dval. by rewrite Hkv. }
  rewrite <- (zsumf_fmap (fun k => g (dval d k)) fst d). change (d.*1) with (dkeys d).
  rewrite (zsumf_sublist (fun k => g (dval d k)) (fun k => if decide (k ∈ dkeys d) then 1 else 0) (dkeys d) Ks); [|done..| |].
  - apply zsumf_ext. intros k _. destruct (decide _) as [|Hn]; [lia|]. apply dget_None in Hn. unfold dval. rewrite Hn. simpl. rewrite H0. lia.
  - intros k Hk. split; [by apply Hin|]. by rewrite decide_True.
  - intros k _ Hk. by rewrite decide_False.
Qed.
Definition wt (p : mpx) (l x y : name) : Z := match pA p (LBare l) with Some m => w0 m x y | None => 0 end.
Definition bl (p : mpx) (l x y : name) : Z := zne (wt p l x y) 0.
Definition exb (p : mpx) (x l : name) : bool :=
  match miter_node_layers p with Ok L => lin [x; l] L | Err _ => false end.
Definition el (p : mpx) (x l : name) : Z := if exb p x l then 1 else 0.
Definition lays (p : mpx) : list name := default [] (mslices p !! 1%nat).

Section Prim.
  Context (w : Z) (fi : bool) (h : list call) (p : mpx) (Hi : pinv [CCat w] false 0 fi h p) (Hw : w <> 0) (Hs : no_loops p).
  Let Hp : pwf p := pi_wf _ _ _ _ _ _ Hi.
  Local Lemma p_asp : maspects p = 1%nat.
  Proof. unfold maspects. by rewrite (pi_coup _ _ _ _ _ _ Hi). Qed.
  Local Lemma p_noe : mnoe p = 0. Proof. apply Hi. Qed.
  Local Lemma p_dir : mdir p = false. Proof. apply Hi. Qed.
  Lemma lays_eq : mslices p !! 1%nat = Some (lays p).
  Proof.
    unfold lays. destruct (mslices p !! 1%nat) eqn:E; [done|]. apply lookup_ge_None in E. rewrite (pw_len p Hp), p_asp in E. lia.
  Qed.
  Lemma layers1_eq : layers1 p = Ok (lays p).
  Proof. unfold layers1, mget_layers. by rewrite lays_eq. Qed.
  Lemma NoDup_lays : NoDup (lays p).
  Proof. eapply (Forall_lookup_1 _ _ 1%nat); [apply (pw_nd p Hp)|apply lays_eq]. Qed.
  Lemma NoDup_mnodes : NoDup (mnodes p).
  Proof. eapply (Forall_lookup_1 _ _ 0%nat); [apply (pw_nd p Hp)|by apply slice0]. Qed.
  Lemma lays_psl l : l ∈ lays p <-> psl p 1 l.
  Proof. unfold psl. rewrite lays_eq. split; [eauto|]. by intros (s & [= <-] & ?). Qed.
  Lemma lay_view l : l ∈ lays p <-> exists m, pA p (LBare l) = Some m.
  Proof.
    rewrite lays_psl. split.
    - intros Hl. apply lay_pA; [done| |]; simpl; [split; [apply p_asp|done]|apply p_asp].
    - intros [m Hm]. assert (LBare l ∈ dkeys (mA p)) as Hd.
      { unfold pA in Hm. destruct (dget (mA p) (LBare l)) eqn:E; [|done]. apply elem_of_dkeys. by eexists. }
      apply (pw_dom p Hp) in Hd as [[_ Hd] _]. done.
  Qed.
  Lemma view_good l m : pA p (LBare l) = Some m -> good m /\ aspects m = 0%nat /\ noEdge m = 0 /\ directed m = false.
  Proof.
    intros Hm. destruct (pi_view _ _ _ _ _ _ Hi _ _ Hm) as (g & Hh & _). pose proof (hist_good _ _ _ _ _ _ Hh) as Hgd.
    destruct (hist_inv _ _ _ _ _ _ Hh) as [_ HL Ha Hn Hd _]. done.
  Qed.
  Lemma wt_view l m x y : pA p (LBare l) = Some m -> wt p l x y = w0 m x y.
  Proof. intros Hm. unfold wt. by rewrite Hm. Qed.
  Lemma w0_linked m x y : good m -> aspects m = 0%nat -> noEdge m = 0 -> w0 m x y <> 0 <-> linked m [x] [y].
  Proof.
    intros Hg Ha Hn. rewrite linked_lnk, <- rd_noEdge by done. unfold w0. rewrite weight_rd by done. by rewrite Hn.
  Qed.
  Lemma wt_self l x : wt p l x x = 0.
  Proof.
    unfold wt. destruct (pA p (LBare l)) as [m|] eqn:Hm; [|done]. apply (Hs l x). unfold agetitem. by rewrite Hm.
  Qed.
  Lemma wt_sym l x y : wt p l x y = wt p l y x.
  Proof.
    unfold wt. destruct (pA p (LBare l)) as [m|] eqn:Hm; [|done]. destruct (view_good _ _ Hm) as ([HS HL] & Ha & Hn & Hd).
    unfold w0. rewrite !weight_rd by done. unfold rd. by rewrite (wfL_sym m HL Hd).
  Qed.
  Lemma bl_01 l x y : bl p l x y = 0 \/ bl p l x y = 1.
  Proof. unfold bl, zne. destruct (decide _); auto. Qed.
  Lemma bl_sym l x y : bl p l x y = bl p l y x.
  Proof. unfold bl. by rewrite wt_sym. Qed.
  Lemma bl_self l x : bl p l x x = 0.
  Proof. unfold bl. by rewrite wt_self. Qed.
  Lemma bl_1 l x y : bl p l x y = 1 <-> wt p l x y <> 0.
  Proof. unfold bl, zne. destruct (decide _); split; (done || lia). Qed.
  Lemma exb_iff x l : exb p x l = true <-> mexists p [x; l].
  Proof.
    unfold exb. destruct (miter_node_layers_ok p Hp) as (L & HL & _). rewrite HL, Base.lin_true. unfold mexists. rewrite HL.
    split; [eauto|]. by intros (? & [= <-] & ?).
  Qed.
  Lemma el_01 x l : el p x l = 0 \/ el p x l = 1.
  Proof. unfold el. destruct (exb p x l); auto. Qed.
  Lemma el_1 x l : el p x l = 1 <-> mexists p [x; l].
  Proof. rewrite <- exb_iff. unfold el. destruct (exb p x l); split; done || lia. Qed.
  Lemma el_in x l : el p x l = 1 -> x ∈ mnodes p /\ l ∈ lays p.
  Proof.
    rewrite el_1. intros (_ & Hc & _)%(mexists_psl p _ Hp). split; [apply mnodes_psl; by apply (Hc 0%nat)|apply lays_psl; by apply (Hc 1%nat)].
  Qed.
  Lemma el_view x l m : pA p (LBare l) = Some m -> el p x l = 1 <-> x ∈ net_nodes m.
  Proof.
    intros Hm. rewrite el_1. destruct (mfic p) eqn:Hf.
    - rewrite (pA_nodes_fic _ _ _ Hm Hf), mexists_iff, Hf, mnodes_psl by done. split.
      + intros [_ Hc]. by apply (Hc 0%nat).
      + intros Hx. split; [by rewrite p_asp|]. intros [|[|k]] y; cbn; [by intros [= <-]|intros [= <-]|by destruct k].
        apply lays_psl, lay_view. eauto.
    - rewrite mexists_nf by (done || rewrite ?p_asp; done || lia). unfold pA in Hm. rewrite Hf in Hm.
      destruct (dget (mA p) (LBare l)) as [m'|] eqn:E; [|done]. injection Hm as ->.
      rewrite p_asp. simpl. by rewrite (pw_node p Hp Hf _ _ x E).
  Qed.
  Lemma bl_el l x y : bl p l x y = 1 -> el p x l = 1 /\ el p y l = 1.
  Proof.
    intros Hb. pose proof Hb as Hb'. apply bl_1 in Hb'. unfold wt in Hb'. destruct (pA p (LBare l)) as [m|] eqn:Hm; [|done].
    destruct (view_good _ _ Hm) as (Hg & Ha & Hn & Hd). apply w0_linked, linked_lnk in Hb' as [v Hv]; [|done..].
    destruct (wfL_present m (proj2 Hg) _ _ _ Hv) as [H1 H2].
    assert (forall z, [z] ∈ iter_node_layers m -> el p z l = 1) as Hz.
    { intros z Hz. apply (el_view z l m Hm). apply elem_of_iter_node_layers in Hz as [Hz _]; [|apply Hg].
      unfold nl_in_slices in Hz. pose proof (wfS_len m (proj1 Hg)) as Hl. rewrite Ha in Hl. unfold net_nodes.
      destruct (slices m) as [|s [|]]; [done| |done]. by inversion Hz. }
    split; by apply Hz.
  Qed.

  (** Iterating the neighbours of a node of an intra-layer network. *)
  Lemma nbs0_NoDup l m x : pA p (LBare l) = Some m -> NoDup (nbs0 m x).
  Proof.
    intros Hm. destruct (view_good _ _ Hm) as (Hg & Ha & Hn & Hd). destruct (iter_total_exact m [x] None Hg I) as [HN HE].
    unfold nbs0. apply NoDup_fmap_2_strong; [|done]. intros a b Ha' Hb' He.
    assert (forall c, c ∈ iter_total m [x] None -> length c = 1%nat) as Hl.
    { intros c Hc. apply HE in Hc as [[(_ & Hc & _)|(Hc & _)] _]; by rewrite Ha in Hc. }
    pose proof (Hl a Ha') as La. pose proof (Hl b Hb') as Lb.
    destruct a as [|a []]; try done. destruct b as [|b []]; try done. simpl in He. unfold node_of in He. simpl in He. congruence.
  Qed.
  Lemma elem_of_nbs0 l m x y : pA p (LBare l) = Some m -> y ∈ nbs0 m x <-> bl p l x y = 1.
  Proof.
    intros Hm. destruct (view_good _ _ Hm) as (Hg & Ha & Hn & Hd). destruct (iter_total_exact m [x] None Hg I) as [HN HE].
    rewrite bl_1, (wt_view _ _ _ _ Hm), w0_linked by done. unfold nbs0. rewrite elem_of_list_fmap.
    assert (forall a b, linked m a b -> linked m b a) as Hsy.
    { intros a b. rewrite !linked_lnk by done. by rewrite (wfL_sym m (proj2 Hg) Hd). }
    split.
    - intros (c & -> & Hc). apply HE in Hc as [Hc _]. assert (linked m [x] c) as Hc' by (destruct Hc; auto).
      pose proof (proj1 (proj2 Hc')) as Hlc. rewrite Ha in Hlc.
      destruct c as [|c []]; done.
    - intros Hl. exists [y]. split; [done|]. apply HE. split; [first [by left | right; by apply Hsy]|]; try done.
  Qed.
  Lemma deg0_len l m x : pA p (LBare l) = Some m -> deg0 m x = Z.of_nat (length (nbs0 m x)).
  Proof.
    intros Hm. destruct (view_good _ _ Hm) as (Hg & Ha & Hn & Hd). unfold deg0, nbs0, degree, iter_total.
    rewrite Hd, fmap_length. apply degree_out_iter.
  Qed.
  Lemma nbs0_sum l m x (f : name -> Z) : pA p (LBare l) = Some m ->
    zsumf f (nbs0 m x) = zsumf (fun y => bl p l x y * f y) (mnodes p).
  Proof.
    intros Hm. apply zsumf_sublist; [by eapply nbs0_NoDup|apply NoDup_mnodes| |].
    - intros y Hy. apply (elem_of_nbs0 _ _ _ _ Hm) in Hy. split; [|done]. apply bl_el in Hy as [_ Hy]. by apply el_in in Hy as [? _].
    - intros y _ Hy. rewrite (elem_of_nbs0 _ _ _ _ Hm) in Hy. by destruct (bl_01 l x y).
  Qed.

  (** Reading links. *)
  Lemma read_intra x y l : pget_pair p [x; l] [y; l] = Ok (wt p l x y).
  Proof.
    destruct (decide (x = y)) as [->|Hne].
    - rewrite wt_self. rewrite pget_pair_none, p_noe; [done|done|]. intros d (_ & Hd & Hk). by apply (proj1 (Hk d)).
    - rewrite pget_pair_intra by by apply differ_at_0. rewrite p_asp. unfold wt. change (lkey 1 (tail [x; l])) with (LBare l). rewrite p_noe. by destruct (pA p (LBare l)).
  Qed.
  Lemma read3 x y l : pgetitem p [x; y; l] = Ok (wt p l x y).
  Proof. rewrite (pgetitem_pair p _ [x; l] [y; l]); [apply read_intra|]. rewrite p_asp. by apply names_short. Qed.
  Lemma names4 x y l l2 : names_link (maspects p) [x; y; l; l2] [x; l] [y; l2].
  Proof. rewrite p_asp. exact (names_link_full 1 [x; l] [y; l2] eq_refl eq_refl). Qed.
  Lemma read4 x y l : pgetitem p [x; y; l; l] = Ok (wt p l x y).
  Proof. rewrite (pgetitem_pair p _ [x; l] [y; l]); [apply read_intra|apply names4]. Qed.
  Lemma lnk1_eq j i l : lnk1 p j i l = Ok (bl p l j i).
  Proof. unfold lnk1. rewrite read4. cbn [rbind]. by rewrite p_noe. Qed.
  Lemma lnk3_eq j i l : lnk3 p j i l = Ok (bl p l j i).
  Proof. unfold lnk3. rewrite read3. cbn [rbind]. by rewrite p_noe. Qed.
  Lemma read_coup x l l2 : l ∈ lays p -> l2 ∈ lays p -> l <> l2 ->
    pgetitem p [x; x; l; l2] = Ok (if decide (el p x l = 1 /\ el p x l2 = 1) then w else 0).
  Proof.
    intros Hl Hl2 Hne. rewrite (pgetitem_pair p _ [x; l] [x; l2]) by apply names4.
    assert (differ_at 1 [x; l] [x; l2]) as Hd by (apply differ_at_S; split; [done|]; by apply differ_at_0).
    destruct (decide _) as [[H1 H2]|Hno].
    - apply el_1 in H1, H2. rewrite (pget_pair_coup_ex p 0) by done. unfold cread. cbn [Nat.sub].
      by rewrite (pi_coup _ _ _ _ _ _ Hi).
    - rewrite (pget_pair_coup p 0) by done. change (node_of [x; l]) with x. destruct (lin x (mnodes p)) eqn:Hx; [|by rewrite p_noe].
      apply lay_view in Hl as [m1 Hm1]. apply lay_view in Hl2 as [m2 Hm2].
      destruct (mfic p) eqn:Hf.
      + exfalso. apply Hno. apply Base.lin_true in Hx. rewrite (el_view _ _ _ Hm1), (el_view _ _ _ Hm2).
        by rewrite (pA_nodes_fic _ _ _ Hm1 Hf), (pA_nodes_fic _ _ _ Hm2 Hf).
      + rewrite p_asp. change (lkey 1 (tail [x; l])) with (LBare l). change (lkey 1 (tail [x; l2])) with (LBare l2).
        rewrite Hm1. destruct (lin x (net_nodes m1)) eqn:E1; [|cbn [rbind]; by rewrite p_noe].
        rewrite Hm2. destruct (lin x (net_nodes m2)) eqn:E2; [|cbn [rbind]; by rewrite p_noe].
        exfalso. apply Hno. apply Base.lin_true in E1, E2. by rewrite (el_view _ _ _ Hm1), (el_view _ _ _ Hm2).
  Qed.
  Lemma cpl1_eq x l l2 : l ∈ lays p -> l2 ∈ lays p -> l <> l2 -> cpl1 p x l l2 = Ok (el p x l * el p x l2).
  Proof.
    intros Hl Hl2 Hne. unfold cpl1. rewrite read_coup by done. cbn [rbind]. rewrite p_noe. f_equal.
    unfold zne. destruct (el_01 x l) as [->| ->], (el_01 x l2) as [->| ->];
      destruct (decide (_ /\ _)) as [[? ?]|Hno]; try lia; try (exfalso; by apply Hno); rewrite ?decide_True by done; rewrite ?decide_False by done; done.
  Qed.

  (** Iterating couplings. *)
  Lemma select_coup i l : select_dims p [i; l] (Some [Some i; None]) = [1%nat].
  Proof. unfold select_dims. cbn [dims_match]. rewrite bool_decide_eq_true_2 by done. done. Qed.
  Lemma select_lay i l : select_dims p [i; l] (Some [None; Some l]) = [0%nat].
  Proof. unfold select_dims. cbn [dims_match]. rewrite bool_decide_eq_true_2 by done. done. Qed.
  Lemma coup_layers_eq i l : el p i l = 1 -> exists cs, coup_layers p i l = Ok cs /\ NoDup cs /\
    (forall l2, l2 ∈ cs <-> l2 <> l /\ el p i l2 = 1) /\ coup_deg p i l = Ok (Z.of_nat (length cs)).
  Proof.
    intros He. pose proof (el_in _ _ He) as [Hin Hl]. apply lay_view in Hl as HA. destruct HA as [m Hm].
    assert (forall l2, el p i l2 = 1 <-> if mfic p then l2 ∈ lays p else LBare l2 ∈ mn2lv p i) as Hel.
    { intros l2. rewrite el_1. destruct (mfic p) eqn:Hf.
      - rewrite mexists_iff, Hf, p_asp by done. split.
        + intros [_ Hc]. apply lays_psl. by apply (Hc 1%nat).
        + intros Hl2. split; [done|]. intros [|[|k]] y; cbn; [intros [= <-]; by apply mnodes_psl|intros [= <-]; by apply lays_psl|by destruct k].
      - rewrite mexists_nf by (done || rewrite ?p_asp; done || lia). by rewrite p_asp. }
    unfold coup_layers, coup_deg, mp_iter, mp_degree, piter, pdegree, pdir. rewrite p_dir, select_coup.
    cbn [rmapM decide]. rewrite decide_False by lia. unfold iter_dim, dim_degree.
    cbn [Nat.sub lookup list_lookup]. rewrite (pi_coup _ _ _ _ _ _ Hi), lays_eq. cbn [lookup list_lookup].
    destruct (mfic p) eqn:Hf.
    - cbn [rbind concat app]. exists (filter (fun y => y <> l) (lays p)). split; [|split; [|split]].
      + rewrite app_nil_r. rewrite (rmapM_Ok_iff _ (fun b : nl => default l (b !! 1%nat))).
        * f_equal. rewrite <- list_fmap_compose. apply list_eq. intros k. rewrite list_lookup_fmap. by destruct (filter _ _ !! k).
        * intros b (y & -> & Hy)%elem_of_list_fmap. done.
      + apply NoDup_filter, NoDup_lays.
      + intros l2. by rewrite elem_of_list_filter, Hel.
      + rewrite decide_False by lia. cbn [rbind]. rewrite zsum_cons, zsum_nil, Z.add_0_r. f_equal. symmetry. by apply length_filter_ne; [apply NoDup_lays|].
    - rewrite p_asp. change (lkey 1 (tail [i; l])) with (LBare l). rewrite Hm.
      cbn [node_of]. rewrite (proj2 (Base.lin_true _ _)) by (by apply (el_view _ _ _ Hm)).
      pose proof (proj1 (Hel l) He) as Hll. unfold mn2lv in *. change (player_of 1 [i; l]) with (LBare l).
      destruct (dget (mn2l p) i) as [ls|] eqn:En; cbn [default] in *; [|by apply elem_of_nil in Hll].
      assert (forall y, y ∈ ls -> exists z, y = LBare z) as Hbare.
      { intros y Hy. assert (y ∈ mn2lv p i) as Hy' by (unfold mn2lv; by rewrite En). apply (pw_n2l p Hp) in Hy' as [_ Hlay].
        destruct y as [z|t]; [eauto|]. destruct Hlay as [Hlay _]. rewrite p_asp in Hlay. simpl in Hlay. lia. }
      assert (NoDup ls) as Hnd. { pose proof (pw_n2l_nd p Hp i) as Hnd. unfold mn2lv in Hnd. by rewrite En in Hnd. }
      exists ((fun y => match y with LBare z => z | LTup _ => l end) <$> filter (fun y => y <> LBare l) ls). split; [|split; [|split]].
      + change (node_of [i; l]) with i. rewrite En. cbn [rbind concat]. rewrite app_nil_r. rewrite (rmapM_Ok_iff _ (fun b : nl => default l (b !! 1%nat))).
        * f_equal. rewrite <- list_fmap_compose. apply list_fmap_ext. intros k y Hy. apply elem_of_list_lookup_2, elem_of_list_filter in Hy as [_ Hy].
          by destruct (Hbare y Hy) as [z ->].
        * intros b (y & -> & Hy)%elem_of_list_fmap. apply elem_of_list_filter in Hy as [_ Hy]. by destruct (Hbare y Hy) as [z ->].
      + apply NoDup_fmap_2_strong; [|by apply NoDup_filter]. intros y z (_ & Hy)%elem_of_list_filter (_ & Hz)%elem_of_list_filter.
        destruct (Hbare y Hy) as [y' ->], (Hbare z Hz) as [z' ->]. by intros ->.
      + intros l2. rewrite elem_of_list_fmap, Hel. split.
        * intros (y & -> & (Hne & Hy)%elem_of_list_filter). destruct (Hbare y Hy) as [z ->]. split; [congruence|done].
        * intros [Hne Hy]. exists (LBare l2). split; [done|]. apply elem_of_list_filter. split; [congruence|done].
      + rewrite decide_False by lia. change (node_of [i; l]) with i. rewrite En. rewrite (proj2 (Base.lin_true _ _)) by done. rewrite decide_True by done. cbn [rbind].
        rewrite zsum_cons, zsum_nil, Z.add_0_r, fmap_length. f_equal. symmetry. by apply length_filter_ne.
  Qed.
  Lemma coup_sum i l cs (f : name -> Z) : el p i l = 1 -> coup_layers p i l = Ok cs ->
    zsumf f cs = zsumf (fun l2 => ind (l2 <> l) * el p i l2 * f l2) (lays p).
  Proof.
    intros He Hc. destruct (coup_layers_eq i l He) as (cs' & Hc' & Hnd & Hin & _). rewrite Hc in Hc'. injection Hc' as <-.
    apply zsumf_sublist; [done|apply NoDup_lays| |].
    - intros l2 Hl2. apply Hin in Hl2 as [Hne Hl2]. split; [by apply el_in in Hl2 as [_ ?]|]. rewrite ind_true, Hl2 by done. done.
    - intros l2 _ Hl2. rewrite Hin in Hl2. unfold ind. destruct (decide (l2 <> l)) as [Hne|]; [|done].
      destruct (el_01 i l2) as [->|E]; [done|]. by destruct Hl2.
  Qed.
  Lemma lay_nodes_eq i l m : pA p (LBare l) = Some m -> lay_nodes p i l = Ok (nbs0 m i) /\ lay_deg p i l = Ok (deg0 m i).
  Proof.
    intros Hm. destruct (view_good _ _ Hm) as (Hg & Ha & Hn & Hd).
    unfold lay_nodes, lay_deg, mp_iter, mp_degree, piter, pdegree, pdir. rewrite p_dir, select_lay, p_asp.
    cbn [rmapM]. rewrite decide_True by done. change (lkey 1 (tail [i; l])) with (LBare l). rewrite Hm. split.
    - cbn [rbind concat]. rewrite app_nil_r. rewrite (rmapM_Ok_iff _ (fun b : nl => node_of b)).
      + f_equal. unfold nbs0. rewrite <- list_fmap_compose. cbn [dir_iter]. unfold iter_total. rewrite Hd. done.
      + intros b (c & -> & Hc)%elem_of_list_fmap. done.
    - cbn [rbind]. unfold deg0, degree. rewrite Hd. cbn [dir_degree]. unfold zsum. simpl. by rewrite Z.add_0_r.
  Qed.
  Lemma intra_eq l : l ∈ lays p -> exists m, intra p (LBare l) = Ok m /\ pA p (LBare l) = Some m.
  Proof. intros [m Hm]%lay_view. exists m. unfold intra. by rewrite Hm. Qed.

  (** ** Guarded sums: over the neighbours of [x] on layer [l], over the other layers of
      node [x], over the other nodes of layer [l] *)
  Definition SA (l x : name) (f : name -> Z) : Z := zsumf (fun i => bl p l x i * f i) (mnodes p).
  Definition SC (l x : name) (f : name -> Z) : Z := zsumf (fun l2 => ind (l2 <> l) * el p x l2 * f l2) (lays p).
  Definition SF (l x : name) (f : name -> Z) : Z := zsumf (fun i => ind (i <> x) * el p i l * f i) (mnodes p).
  Lemma SA_ext l x f g : (forall i, bl p l x i = 1 -> f i = g i) -> SA l x f = SA l x g.
  Proof. intros H. apply zsumf_ext. intros i _. destruct (bl_01 l x i) as [E|E]; rewrite E; [lia|]. by rewrite H. Qed.
  Lemma SC_ext l x f g : (forall l2, l2 <> l -> el p x l2 = 1 -> f l2 = g l2) -> SC l x f = SC l x g.
  Proof.
    intros H. apply zsumf_ext. intros l2 _. unfold ind. destruct (decide (l2 <> l)); [|lia].
    destruct (el_01 x l2) as [E|E]; rewrite E; [lia|]. by rewrite H.
  Qed.
  Lemma SF_ext l x f g : (forall i, i <> x -> el p i l = 1 -> f i = g i) -> SF l x f = SF l x g.
  Proof.
    intros H. apply zsumf_ext. intros i _. unfold ind. destruct (decide (i <> x)); [|lia].
    destruct (el_01 i l) as [E|E]; rewrite E; [lia|]. by rewrite H.
  Qed.
  Lemma rsum_SA l m x f g : pA p (LBare l) = Some m -> (forall i, bl p l x i = 1 -> f i = Ok (g i)) -> rsum f (nbs0 m x) = Ok (SA l x g).
  Proof.
    intros Hm H. rewrite (rsum_ok f g); [by rewrite (nbs0_sum _ _ _ _ Hm)|]. intros i Hin. apply H. by apply (elem_of_nbs0 _ _ _ _ Hm).
  Qed.
  Lemma rsum_SC l x f g : el p x l = 1 -> (forall l2, l2 <> l -> el p x l2 = 1 -> f l2 = Ok (g l2)) ->
    (let? cs := coup_layers p x l in rsum f cs) = Ok (SC l x g).
  Proof.
    intros He H. destruct (coup_layers_eq x l He) as (cs & Hc & Hnd & Hin & _). rewrite Hc. cbn [rbind].
    rewrite (rsum_ok f g); [by rewrite (coup_sum _ _ _ _ He Hc)|]. intros l2 Hl2. apply Hin in Hl2 as [??]. by apply H.
  Qed.
  Lemma rsum_lay l x f g : l ∈ lays p -> (forall i, bl p l x i = 1 -> f i = Ok (g i)) ->
    (let? js := lay_nodes p x l in rsum f js) = Ok (SA l x g).
  Proof. intros [m Hm]%lay_view H. rewrite (proj1 (lay_nodes_eq x l m Hm)). cbn [rbind]. by apply rsum_SA. Qed.

  (** ** Matrix products *)
  Section Walks.
    Context (V : list nl) (HV : lists_exactly V (mexists p)) (A C F : nl -> nl -> Z)
      (HA : indicates (stepA p) A) (HC : indicates (stepC p) C) (HF : indicates (stepF p) F).
    Lemma V_sum f : zsumf f V = zsumf (fun i => zsumf (fun l => el p i l * f [i; l]) (lays p)) (mnodes p).
    Proof.
      rewrite (zsumf_sublist f (fun v => match v with [i; l] => el p i l | _ => 0 end) V (cart [mnodes p; lays p])).
      - cbn [cart]. rewrite zsumf_bind. apply zsumf_ext. intros i _. rewrite zsumf_fmap, zsumf_bind. apply zsumf_ext. intros l _.
        rewrite zsumf_fmap, zsumf_cons, zsumf_nil. lia.
      - apply HV.
      - apply NoDup_cart. repeat apply Forall_cons_2; [apply NoDup_mnodes|apply NoDup_lays|apply Forall_nil_2].
      - intros v Hv. apply HV in Hv. destruct (mexists_psl p _ Hp Hv) as (Hl & _). rewrite p_asp in Hl.
        destruct v as [|i [|l []]]; try done. apply el_1 in Hv. split; [|done]. apply elem_of_cart.
        apply el_in in Hv as [??]. by repeat apply Forall2_cons_2.
      - intros v Hv%elem_of_cart Hn. assert (exists i l, v = [i; l]) as (i & l & ->).
        { apply Forall2_length in Hv. destruct v as [|i [|l []]]; try done. eauto. }
        simpl. destruct (el_01 i l) as [|E]; [done|]. by apply el_1, HV in E.
    Qed.
    Lemma A_eq x l y l2 : A [x; l] [y; l2] = ind (l = l2) * bl p l x y.
    Proof.
      unfold ind. destruct (decide (l = l2)) as [<-|Hne].
      - assert (stepA p [x; l] [y; l] <-> bl p l x y = 1) as Hst.
        { unfold stepA. rewrite bl_1. unfold mlinked. setoid_rewrite mreads_pair; [|rewrite p_asp; done..].
          setoid_rewrite read_intra. rewrite p_noe. split.
          - by intros [(v & [= <-] & Hv) _].
          - intros Hv. split; [eauto|done]. }
        destruct (HA [x; l] [y; l]) as [[H1 ->]|[H1 ->]]; [apply Hst in H1; lia|]. destruct (bl_01 l x y) as [->|E]; [lia|]. by apply Hst in E.
      - destruct (HA [x; l] [y; l2]) as [[[_ H1] _]|[_ ->]]; [by injection H1|lia].
    Qed.
    Lemma C_eq x l y l2 : el p x l = 1 -> el p y l2 = 1 -> C [x; l] [y; l2] = ind (x = y) * ind (l2 <> l).
    Proof.
      intros E1 E2. pose proof (el_in _ _ E1) as [_ I1]. pose proof (el_in _ _ E2) as [_ I2].
      assert (stepC p [x; l] [y; l2] <-> x = y /\ l2 <> l) as Hst.
      { unfold stepC, mlinked. split.
        - intros [(v & Hv & Hn) Ht]. assert (l2 <> l) as Hl by (by intros ->). split; [|done].
          destruct (decide (x = y)) as [|Hxy]; [done|]. exfalso. rewrite mreads_pair in Hv by (rewrite p_asp; done).
          rewrite pget_pair_none in Hv; [congruence|done|]. intros [|[|d]] Hd.
          + apply differ_at_0 in Hd as [_ Hd]. by injection Hd.
          + by apply differ_at_S in Hd as [Hd _].
          + apply differ_at_S in Hd as [Hd _]. done.
        - intros [<- Hne]. split; [|simpl; congruence]. exists w. rewrite p_noe. split; [|done]. exists [x; x; l; l2].
          split; [apply names4|]. rewrite read_coup by congruence. by rewrite decide_True. }
      unfold ind. destruct (HC [x; l] [y; l2]) as [[H1 ->]|[H1 ->]].
      - apply Hst in H1 as [-> H1]. by rewrite !decide_True.
      - destruct (decide (x = y)) as [->|]; [|done]. destruct (decide (l2 <> l)) as [Hl|]; [|done]. exfalso. apply H1, Hst. done.
    Qed.
    Lemma F_eq x l y l2 : el p x l = 1 -> el p y l2 = 1 -> F [x; l] [y; l2] = ind (l = l2) * ind (y <> x).
    Proof.
      intros E1 E2.
      assert (stepF p [x; l] [y; l2] <-> l = l2 /\ y <> x) as Hst.
      { unfold stepF. rewrite <- !el_1. simpl. split.
        - intros (_ & _ & [= <-] & Hne). split; [done|]. congruence.
        - intros [<- Hne]. repeat (split; [done|]). congruence. }
      unfold ind. destruct (HF [x; l] [y; l2]) as [[H1 ->]|[H1 ->]].
      - apply Hst in H1 as [-> H1]. by rewrite !decide_True.
      - destruct (decide (l = l2)) as [->|]; [|done]. destruct (decide (y <> x)) as [Hl|]; [|done]. exfalso. apply H1, Hst. done.
    Qed.
    Lemma mulA g x l b : el p x l = 1 -> mmul V A g [x; l] b = SA l x (fun i => g [i; l] b).
    Proof.
      intros E. pose proof (el_in _ _ E) as [_ Il]. unfold mmul. rewrite V_sum. apply zsumf_ext. intros i _.
      rewrite (zsumf_ext (fun l2 => el p i l2 * (A [x; l] [i; l2] * g [i; l2] b)) (fun l2 => ind (l2 = l) * (bl p l x i * g [i; l] b))).
      - rewrite zsumf_point; [done|apply NoDup_lays|done].
      - intros l2 _. rewrite A_eq. destruct (decide (l = l2)) as [<-|Hne].
        + rewrite !ind_true by done. destruct (bl_01 l x i) as [->|B]; [lia|]. rewrite B. apply bl_el in B as [_ ->]. lia.
        + rewrite !ind_false by congruence. lia.
    Qed.
    Lemma mulC g x l b : el p x l = 1 -> mmul V C g [x; l] b = SC l x (fun l2 => g [x; l2] b).
    Proof.
      intros E. pose proof (el_in _ _ E) as [Ix Il]. unfold mmul. rewrite V_sum, zsumf_swap. apply zsumf_ext. intros l2 _.
      rewrite (zsumf_ext (fun i => el p i l2 * (C [x; l] [i; l2] * g [i; l2] b)) (fun i => ind (i = x) * (ind (l2 <> l) * el p x l2 * g [x; l2] b))).
      - rewrite zsumf_point; [done|apply NoDup_mnodes|done].
      - intros i _. destruct (el_01 i l2) as [E2|E2].
        + rewrite E2. unfold ind at 1. destruct (decide (i = x)) as [->|]; [|lia]. rewrite E2. lia.
        + rewrite C_eq by done. rewrite E2. destruct (decide (i = x)) as [->|].
          * rewrite !(ind_true (x = x)) by done. rewrite E2. lia.
          * rewrite (ind_false (x = i)), (ind_false (i = x)) by congruence. lia.
    Qed.
    Lemma mulF g x l b : el p x l = 1 -> mmul V F g [x; l] b = SF l x (fun i => g [i; l] b).
    Proof.
      intros E. pose proof (el_in _ _ E) as [_ Il]. unfold mmul. rewrite V_sum. apply zsumf_ext. intros i _.
      rewrite (zsumf_ext (fun l2 => el p i l2 * (F [x; l] [i; l2] * g [i; l2] b)) (fun l2 => ind (l2 = l) * (ind (i <> x) * el p i l * g [i; l] b))).
      - rewrite zsumf_point; [done|apply NoDup_lays|done].
      - intros l2 _. destruct (el_01 i l2) as [E2|E2].
        + rewrite E2. unfold ind at 1. destruct (decide (l2 = l)) as [->|]; [|lia]. rewrite E2. lia.
        + rewrite F_eq by done. rewrite E2. destruct (decide (l2 = l)) as [->|].
          * rewrite !(ind_true (l = l)) by done. rewrite E2. lia.
          * rewrite (ind_false (l = l2)), (ind_false (l2 = l)) by congruence. lia.
    Qed.

    (** The ends of the walks. *)
    Local Notation "1m" := (fun a b : nl => if decide (a = b) then 1 else 0).
    Lemma SA_pt l x x0 f : SA l x (fun k => ind (k = x0) * f k) = bl p l x x0 * f x0.
    Proof.
      unfold SA. rewrite (zsumf_ext (fun i => bl p l x i * (ind (i = x0) * f i)) (fun i => ind (i = x0) * (bl p l x i * f i))) by (intros; lia).
      destruct (decide (x0 ∈ mnodes p)) as [Hx|Hx]; [rewrite zsumf_point; [done|apply NoDup_mnodes|done]|].
      rewrite zsumf_point_out by done. destruct (bl_01 l x x0) as [->|B]; [lia|]. apply bl_el in B as [_ B]. by apply el_in in B as [??].
    Qed.
    Lemma SC_pt l x l0 f : SC l x (fun k => ind (k = l0) * f k) = ind (l0 <> l) * el p x l0 * f l0.
    Proof.
      unfold SC. rewrite (zsumf_ext (fun l2 => ind (l2 <> l) * el p x l2 * (ind (l2 = l0) * f l2)) (fun l2 => ind (l2 = l0) * (ind (l2 <> l) * el p x l2 * f l2))) by (intros; lia).
      destruct (decide (l0 ∈ lays p)) as [Hx|Hx]; [rewrite zsumf_point; [done|apply NoDup_lays|done]|].
      rewrite zsumf_point_out by done. destruct (el_01 x l0) as [->|B]; [lia|]. by apply el_in in B as [??].
    Qed.
    Context (x l : name) (E0 : el p x l = 1).
    Lemma T1 k l2 : el p k l2 = 1 -> mmul V C 1m [k; l2] [x; l] = ind (k = x) * ind (l <> l2).
    Proof.
      intros E. rewrite mulC by done. rewrite (SC_ext _ _ _ (fun l3 => ind (l3 = l) * ind (k = x))).
      - rewrite (SC_pt l2 k l (fun _ => ind (k = x))). destruct (decide (k = x)) as [->|Hk]; [rewrite E0, !(ind_true (x = x)) by done|rewrite !(ind_false (k = x)) by done]; lia.
      - intros l3 _ _. unfold ind. destruct (decide (l3 = l)) as [->|], (decide (k = x)) as [->|]; rewrite ?decide_True by done; rewrite ?decide_False by congruence; done.
    Qed.
    Lemma T2 j l2 : el p j l2 = 1 -> mmul V A (mmul V C 1m) [j; l2] [x; l] = bl p l2 j x * ind (l <> l2).
    Proof.
      intros E. rewrite mulA by done. rewrite (SA_ext _ _ _ (fun k => ind (k = x) * ind (l <> l2))).
      - by rewrite (SA_pt l2 j x (fun _ => ind (l <> l2))).
      - intros k B. apply T1. by apply bl_el in B as [_ ?].
    Qed.
    Lemma T3 j l2 : el p j l2 = 1 -> mmul V A 1m [j; l2] [x; l] = ind (l2 = l) * bl p l2 j x.
    Proof.
      intros E. rewrite mulA by done. rewrite (SA_ext _ _ _ (fun k => ind (k = x) * ind (l2 = l))).
      - rewrite (SA_pt l2 j x (fun _ => ind (l2 = l))). lia.
      - intros k _. unfold ind. destruct (decide (l2 = l)) as [->|], (decide (k = x)) as [->|]; rewrite ?decide_True by done; rewrite ?decide_False by congruence; done.
    Qed.
    Lemma T4 j l2 : el p j l2 = 1 -> mmul V C (mmul V A 1m) [j; l2] [x; l] = ind (l <> l2) * bl p l j x.
    Proof.
      intros E. rewrite mulC by done. rewrite (SC_ext _ _ _ (fun l3 => ind (l3 = l) * bl p l3 j x)).
      - rewrite (SC_pt l2 j l (fun l3 => bl p l3 j x)). destruct (bl_01 l j x) as [->|B]; [lia|]. rewrite B. apply bl_el in B as [-> _]. lia.
      - intros l3 _ E3. by apply T3.
    Qed.
    Local Ltac stA := rewrite mulA by done; apply SA_ext; let i := fresh "i" in let B := fresh "B" in intros i B; pose proof (proj2 (bl_el _ _ _ B)).
    Local Ltac stC := rewrite mulC by done; apply SC_ext; let k := fresh "k" in let Hn := fresh "Hn" in let Hk := fresh "Hk" in intros k Hn Hk.
    Local Ltac stF := rewrite mulF by done; apply SF_ext; let i := fresh "i" in let Hn := fresh "Hn" in let Hk := fresh "Hk" in intros i Hn Hk.
    Definition counts : list Z :=
      [SA l x (fun i => SA l i (fun j => bl p l j x));
       SA l x (fun i => SA l i (fun j => SC l j (fun l2 => bl p l2 j x)));
       SA l x (fun i => SC l i (fun l2 => SA l2 i (fun j => bl p l2 j x)));
       SA l x (fun i => SC l i (fun l2 => SA l2 i (fun j => bl p l j x)));
       SA l x (fun i => SC l i (fun l2 => SA l2 i (fun j => SC l2 j (fun l3 => ind (l3 <> l) * bl p l3 j x))));
       SA l x (fun i => SF l i (fun j => bl p l j x));
       SA l x (fun i => SF l i (fun j => SC l j (fun l2 => bl p l2 j x)));
       SA l x (fun i => SC l i (fun l2 => SF l2 i (fun j => bl p l2 j x)));
       SA l x (fun i => SC l i (fun l2 => SF l2 i (fun j => bl p l j x)));
       SA l x (fun i => SC l i (fun l2 => SF l2 i (fun j => SC l2 j (fun l3 => ind (l3 <> l) * bl p l3 j x))))].
    Lemma words_counts : (fun W => mprod V W [x; l] [x; l]) <$> cycle_words A C F = counts.
    Proof.
      unfold cycle_words, counts. cbn [fmap list_fmap mprod]. repeat f_equal.
      - stA. stA. rewrite T3 by done. rewrite ind_true by done. lia.
      - stA. stA. stC. rewrite T2 by done. rewrite ind_true by done. lia.
      - stA. stC. stA. rewrite T2 by done. rewrite ind_true by done. lia.
      - stA. stC. stA. rewrite T4 by done. rewrite ind_true by done. lia.
      - stA. stC. stA. stC. rewrite T2 by done. rewrite (ind_iff (k0 <> l) (l <> k0)) by (split; congruence). lia.
      - stA. stF. rewrite T3 by done. rewrite ind_true by done. lia.
      - stA. stF. stC. rewrite T2 by done. rewrite ind_true by done. lia.
      - stA. stC. stF. rewrite T2 by done. rewrite ind_true by done. lia.
      - stA. stC. stF. rewrite T4 by done. rewrite ind_true by done. lia.
      - stA. stC. stF. stC. rewrite T2 by done. rewrite (ind_iff (k0 <> l) (l <> k0)) by (split; congruence). lia.
    Qed.
  End Walks.

  (** ** The loops of the code *)
  Section Code.
    Context (x l : name) (m : mlnet) (Hm : pA p (LBare l) = Some m).
    Lemma pairs_SA f : (forall i j, f i j = f j i) -> (forall i, f i i = 0) ->
      2 * zsumf (fun q => f (q.1) (q.2)) (pairs2 (nbs0 m x)) = SA l x (fun i => SA l x (fun j => f i j)).
    Proof.
      intros Hf H0. rewrite <- (zsumf_pairs2 f) by done. unfold SA. rewrite <- (nbs0_sum l m x _ Hm).
      apply zsumf_ext. intros i _. by rewrite (nbs0_sum l m x _ Hm).
    Qed.
    Lemma few_pairs {T} (u : T) (v : list (name * name) -> T) : (v [] = u) -> (if decide (2 <= deg0 m x) then v (pairs2 (nbs0 m x)) else u) = v (pairs2 (nbs0 m x)).
    Proof.
      intros Hv. destruct (decide _) as [|Hd]; [done|]. rewrite (deg0_len l m x Hm) in Hd.
      rewrite pairs2_short by lia. done.
    Qed.
    Lemma SA_len : SA l x (fun _ => 1) = deg0 m x.
    Proof. rewrite (deg0_len l m x Hm). unfold SA. rewrite <- (nbs0_sum l m x _ Hm), zsumf_const. lia. Qed.
    Lemma SA_sym i : SA l i (fun j => bl p l j x) = SA l x (fun j => bl p l i j).
    Proof. unfold SA. apply zsumf_ext. intros j _. rewrite (bl_sym l j x). lia. Qed.
    Lemma c_aaa : cyc_aaa m x = SA l x (fun i => SA l i (fun j => bl p l j x)).
    Proof.
      destruct (view_good _ _ Hm) as (_ & _ & Hn & _). unfold cyc_aaa, tri0.
      rewrite (few_pairs 0 (fun L => zsumf (fun q : name * name => zne (w0 m (q.1) (q.2)) (noEdge m)) L)) by done.
      rewrite Hn. rewrite (zsumf_ext (fun q : name * name => zne (w0 m (q.1) (q.2)) 0) (fun q => bl p l (q.1) (q.2))).
      2:{ intros q _. unfold bl. by rewrite (wt_view _ _ _ _ Hm). }
      rewrite (pairs_SA (bl p l)); [|apply bl_sym|apply bl_self]. apply SA_ext. intros i _. by rewrite SA_sym.
    Qed.
    Lemma c_aacac : cyc_aacac p m x l = Ok (SA l x (fun i => SA l i (fun j => SC l j (fun l2 => bl p l2 j x)))).
    Proof.
      unfold cyc_aacac. apply (rsum_SA l); [done|]. intros i Bi. apply (rsum_SA l); [done|]. intros j Bj. apply rsum_SC; [by apply bl_el in Bj as [_ ?]|].
      intros l2 _ _. apply lnk1_eq.
    Qed.
    Lemma c_acaac : cyc_acaac p m x l = Ok (SA l x (fun i => SC l i (fun l2 => SA l2 i (fun j => bl p l2 j x)))).
    Proof.
      unfold cyc_acaac. apply (rsum_SA l); [done|]. intros i Bi. apply rsum_SC; [by apply bl_el in Bi as [_ ?]|].
      intros l2 _ E2. apply rsum_lay; [by apply el_in in E2 as [_ ?]|]. intros j _. apply lnk1_eq.
    Qed.
    Lemma SC_bl l1 i j : SC l1 i (fun l2 => bl p l2 i j) = zsumf (fun l2 => ind (l2 <> l1) * bl p l2 i j) (lays p).
    Proof.
      apply zsumf_ext. intros l2 _. destruct (bl_01 l2 i j) as [->|B]; [lia|]. rewrite B. apply bl_el in B as [-> _]. lia.
    Qed.
    Lemma c_acaca : cyc_acaca p m x l = Ok (SA l x (fun i => SC l i (fun l2 => SA l2 i (fun j => bl p l j x)))).
    Proof.
      unfold cyc_acaca.
      rewrite (few_pairs (Ok 0) (fun L => let? s := rsum (fun q : name * name => let? cs := coup_layers p (q.1) l in
                      rsum (fun l2 => lnk1 p (q.1) (q.2) l2) cs) L in Ok (s * 2))) by done.
      rewrite (rsum_ok _ (fun q : name * name => zsumf (fun l2 => ind (l2 <> l) * bl p l2 (q.1) (q.2)) (lays p))).
      2:{ intros q Hq. apply pairs2_elem in Hq as [Hq _]. apply (elem_of_nbs0 _ _ _ _ Hm), bl_el in Hq as [_ Hq].
          rewrite <- SC_bl. apply rsum_SC; [done|]. intros l2 _ _. apply lnk1_eq. }
      cbn [rbind]. f_equal. rewrite Z.mul_comm, (pairs_SA (fun i j => zsumf (fun l2 => ind (l2 <> l) * bl p l2 i j) (lays p))).
      - apply SA_ext. intros i Bi. unfold SC, SA.
        rewrite (zsumf_ext (fun j => bl p l x j * _) (fun j => zsumf (fun l2 => bl p l x j * (ind (l2 <> l) * bl p l2 i j)) (lays p))) by (intros; by rewrite zsumf_mul_l).
        rewrite zsumf_swap. apply zsumf_ext. intros l2 _. rewrite <- zsumf_mul_l. apply zsumf_ext. intros j _. rewrite (bl_sym l j x).
        destruct (bl_01 l2 i j) as [->|B]; [lia|]. rewrite B. apply bl_el in B as [-> _]. lia.
      - intros i j. apply zsumf_ext. intros l2 _. by rewrite bl_sym.
      - intros i. apply zsumf_zero. intros l2 _. rewrite bl_self. lia.
    Qed.
    Lemma c_acacac : cyc_acacac p m x l =
      Ok (SA l x (fun i => SC l i (fun l2 => SA l2 i (fun j => SC l2 j (fun l3 => ind (l3 <> l) * bl p l3 j x))))).
    Proof.
      unfold cyc_acacac. apply (rsum_SA l); [done|]. intros i Bi. apply rsum_SC; [by apply bl_el in Bi as [_ ?]|].
      intros l2 _ E2. apply rsum_lay; [by apply el_in in E2 as [_ ?]|]. intros j Bj. apply rsum_SC; [by apply bl_el in Bj as [_ ?]|].
      intros l3 _ _. unfold ind. destruct (decide (l3 <> l)); [|done]. rewrite lnk1_eq. f_equal. lia.
    Qed.
    (** Nodes other than [i] on layer [k] linked to [y]. *)
    Lemma SF_bl k i y f : SF k i (fun j => bl p k j y * f j) = SA k y f - bl p k i y * f i.
    Proof.
      unfold SF, SA. rewrite (zsumf_ext (fun j => ind (j <> i) * el p j k * (bl p k j y * f j)) (fun j => ind (j <> i) * (bl p k y j * f j))).
      - rewrite (zsumf_skip _ _ _ NoDup_mnodes). f_equal. destruct (decide _) as [Hi'|Hn]; [by rewrite (bl_sym k i y)|].
        destruct (bl_01 k i y) as [->|B]; [lia|]. apply bl_el in B as [B _]. by apply el_in in B as [??].
      - intros j _. rewrite (bl_sym k y j). destruct (bl_01 k j y) as [->|B]; [lia|]. rewrite B. apply bl_el in B as [-> _]. lia.
    Qed.
    Lemma SF_bl1 k i y : SF k i (fun j => bl p k j y) = SA k y (fun _ => 1) - bl p k i y.
    Proof. rewrite <- (Z.mul_1_r (bl p k i y)), <- (SF_bl k i y (fun _ => 1)). apply zsumf_ext. intros; lia. Qed.
    Lemma c_afa : cyc_afa m x = SA l x (fun i => SF l i (fun j => bl p l j x)).
    Proof.
      unfold cyc_afa. rewrite (SA_ext l x _ (fun i => deg0 m x - 1)).
      - unfold SA. rewrite zsumf_mul_r. rewrite (zsumf_ext (fun i => bl p l x i) (fun i => bl p l x i * 1)) by (intros; lia).
        change (zsumf (fun i => bl p l x i * 1) (mnodes p)) with (SA l x (fun _ => 1)). by rewrite SA_len.
      - intros i Bi. by rewrite SF_bl1, SA_len, bl_sym, Bi.
    Qed.
    Context (E0 : el p x l = 1).
    Lemma c_afcac : cyc_afcac p m x l = Ok (SA l x (fun i => SF l i (fun j => SC l j (fun l2 => bl p l2 j x)))).
    Proof.
      unfold cyc_afcac.
      rewrite (rsum_SC l x _ (fun l2 => SA l2 x (fun i => el p i l * (deg0 m x - bl p l x i)))); [|done|].
      - f_equal. rewrite (SA_ext l x (fun i => SF l i _) (fun i => SF l i (fun j => zsumf (fun l2 => ind (l2 <> l) * bl p l2 j x) (lays p)))).
        2:{ intros i _. apply SF_ext. intros j _ _. apply SC_bl. }
        unfold SC, SA, SF.
        rewrite (zsumf_ext (fun l2 => ind (l2 <> l) * el p x l2 * _) (fun l2 => zsumf (fun j => ind (l2 <> l) * bl p l2 x j * (el p j l * (deg0 m x - bl p l x j))) (mnodes p))).
        2:{ intros l2 _. rewrite <- zsumf_mul_l. apply zsumf_ext. intros j _. destruct (bl_01 l2 x j) as [->|B]; [lia|]. rewrite B. apply bl_el in B as [-> _]. lia. }
        rewrite zsumf_swap.
        rewrite (zsumf_ext (fun i => bl p l x i * _) (fun i => zsumf (fun j => bl p l x i * (ind (j <> i) * el p j l * zsumf (fun l2 => ind (l2 <> l) * bl p l2 j x) (lays p))) (mnodes p))) by (intros; by rewrite zsumf_mul_l).
        rewrite (zsumf_swap _ (mnodes p) (mnodes p)). apply zsumf_ext. intros j Hj.
        rewrite (zsumf_ext (fun i => bl p l x i * _) (fun i => ind (i <> j) * bl p l x i * (el p j l * zsumf (fun l2 => ind (l2 <> l) * bl p l2 j x) (lays p)))).
        2:{ intros i _. rewrite (ind_iff (j <> i) (i <> j)) by (split; congruence). lia. }
        rewrite (zsumf_mul_r _ (fun i => ind (i <> j) * bl p l x i)), (zsumf_skip (fun i => bl p l x i) _ j NoDup_mnodes), decide_True by done.
        replace (zsumf (fun i => bl p l x i) (mnodes p)) with (deg0 m x).
        2:{ rewrite <- SA_len. apply zsumf_ext. intros; lia. }
        rewrite Z.mul_assoc, <- zsumf_mul_l. apply zsumf_ext. intros l2 _. rewrite (bl_sym l2 j x). lia.
      - intros l2 Hl2 E2. pose proof (el_in _ _ E0) as [_ I0]. pose proof (el_in _ _ E2) as [_ I2]. apply rsum_lay; [done|]. intros i Bi.
        rewrite cpl1_eq by done. cbn [rbind]. f_equal. apply bl_el in Bi as [_ ->]. rewrite (deg0_len l m x Hm).
        destruct (decide (i ∈ nbs0 m x)) as [Hin|Hin]; rewrite (elem_of_nbs0 _ _ _ _ Hm) in Hin.
        + rewrite Hin. lia.
        + destruct (bl_01 l x i) as [->|]; [lia|done].
    Qed.

    Lemma c_acfac : cyc_acfac p m x l = Ok (SA l x (fun i => SC l i (fun l2 => SF l2 i (fun j => bl p l2 j x)))).
    Proof.
      pose proof (el_in _ _ E0) as [_ I0]. unfold cyc_acfac. apply (rsum_SA l); [done|]. intros i Bi.
      apply rsum_SC; [by apply bl_el in Bi as [_ ?]|]. intros l2 Hl2 E2. pose proof (el_in _ _ E2) as [_ I2].
      rewrite cpl1_eq by done. cbn [rbind]. rewrite E0, SF_bl1. destruct (el_01 x l2) as [E|E]; rewrite E.
      - rewrite decide_True by done. f_equal. assert (forall y, bl p l2 x y = 0) as Hz.
        { intros y. destruct (bl_01 l2 x y) as [|B]; [done|]. apply bl_el in B as [B _]. lia. }
        rewrite bl_sym, Hz. unfold SA. rewrite zsumf_zero; [done|]. intros y _. rewrite Hz. lia.
      - rewrite decide_False by lia. rewrite read4. cbn [rbind]. apply lay_view in I2 as [m2 Hm2].
        rewrite (proj2 (lay_nodes_eq x l2 m2 Hm2)). cbn [rbind]. f_equal.
        rewrite (deg0_len l2 m2 x Hm2). unfold SA. rewrite <- (nbs0_sum l2 m2 x (fun _ => 1) Hm2), zsumf_const. rewrite (bl_sym l2 i x).
        unfold bl, zne. destruct (decide (wt p l2 x i = 0)); lia.
    Qed.
    Lemma l2n_eq : exists d, layer_to_node p m x l = Ok d /\ dinv d (fun i l2 => bl p l x i = 1 /\ l2 <> l /\ el p i l2 = 1).
    Proof.
      unfold layer_to_node. assert (forall I d R, (forall i, i ∈ I -> el p i l = 1) -> dinv d R ->
        exists d', rfold (fun d i => let? cs := coup_layers p i l in Ok (foldl (fun d l2 => dset d l2 (sadd i (default [] (dget d l2)))) d cs)) d I = Ok d' /\
          dinv d' (fun i l2 => R i l2 \/ i ∈ I /\ l2 <> l /\ el p i l2 = 1)) as HH.
      { induction I as [|i I IH]; intros d R HI Hd.
        - exists d. split; [done|]. destruct Hd as (H1 & H2 & H3). split; [done|]. split; [intros k (v & ?)%H2; eauto|].
          intros k. split; [apply H3|]. intros v. rewrite (proj2 (H3 k)). split; [by left|]. intros [?|[?%elem_of_nil _]]; done.
        - destruct (coup_layers_eq i l) as (cs & Hc & Hcn & Hcs & _); [apply HI; left|].
          cbn [rfold]. rewrite Hc. cbn [rbind]. pose proof (dinv_foldl i cs d R Hd) as Hd'.
          destruct (IH _ _ (fun j Hj => HI j (elem_of_list_further _ _ _ Hj)) Hd') as (d' & -> & H1 & H2 & H3). exists d'. split; [done|].
          split; [done|]. split.
          + intros k (v & Hv)%H2. exists v. rewrite elem_of_cons. destruct Hv as [[?|[-> ?%Hcs]]|(? & ? & ?)]; auto.
          + intros k. split; [apply H3|]. intros v. rewrite (proj2 (H3 k)), elem_of_cons. split.
            * intros [[?|[-> ?%Hcs]]|(? & ? & ?)]; auto.
            * intros [?|([->|?] & ? & ?)]; auto. left. right. split; [done|]. by apply Hcs. }
      destruct (HH (nbs0 m x) [] (fun _ _ => False)) as (d & Hd & H1 & H2 & H3).
      - intros i Hin. apply (elem_of_nbs0 _ _ _ _ Hm), bl_el in Hin as [_ ?]. done.
      - split; [constructor|]. split; [by intros k ?%elem_of_nil|]. intros k. split; [constructor|]. intros v. split; [by intros ?%elem_of_nil|done].
      - exists d. split; [done|]. split; [done|]. split.
        + intros k (v & [[]|(Hv & ? & ?)])%H2. exists v. by rewrite <- (elem_of_nbs0 _ _ _ _ Hm).
        + intros k. split; [apply H3|]. intros v. rewrite (proj2 (H3 k)), (elem_of_nbs0 _ _ _ _ Hm). split; [by intros [[]|?]|by right].
    Qed.
    (** [n (n - 1)] counts the ordered pairs of distinct members of a set. *)
    Lemma sq_sum (c : name -> Z) (N : list name) : NoDup N -> (forall i, c i = 0 \/ c i = 1) ->
      zsumf (fun i => c i * zsumf (fun j => ind (j <> i) * c j) N) N = zsumf c N * (zsumf c N - 1).
    Proof.
      intros HN Hc. rewrite (zsumf_ext (fun i => c i * _) (fun i => c i * (zsumf c N - 1))).
      - by rewrite zsumf_mul_r.
      - intros i Hin. rewrite (zsumf_skip c N i HN), decide_True by done. destruct (Hc i) as [->| ->]; lia.
    Qed.
    Lemma c_acfca : cyc_acfca p m x l = Ok (SA l x (fun i => SC l i (fun l2 => SF l2 i (fun j => bl p l j x)))).
    Proof.
      unfold cyc_acfca. destruct l2n_eq as (d & -> & Hk & Hr & Hd). cbn [rbind]. f_equal.
      rewrite (dsum_keys (fun L => Z.of_nat (length L) * (Z.of_nat (length L) - 1)) d (lays p)); [|done|apply NoDup_lays| |done].
      2:{ intros k (v & _ & _ & E)%Hr. by apply el_in in E as [_ ?]. }
      unfold SA, SC, SF.
      rewrite (zsumf_ext (fun i => bl p l x i * _) (fun i => zsumf (fun l2 => bl p l x i * (ind (l2 <> l) * el p i l2 *
        zsumf (fun j => ind (j <> i) * el p j l2 * bl p l j x) (mnodes p))) (lays p))) by (intros; by rewrite zsumf_mul_l).
      rewrite (zsumf_swap _ (mnodes p) (lays p)). apply zsumf_ext. intros l2 _.
      set (c := fun i => bl p l x i * (ind (l2 <> l) * el p i l2)).
      assert (forall i, c i = 0 \/ c i = 1) as Hc.
      { intros i. unfold c. destruct (bl_01 l x i) as [->| ->], (ind_01 (l2 <> l)) as [->| ->], (el_01 i l2) as [->| ->]; lia. }
      assert (Z.of_nat (length (dval d l2)) = zsumf c (mnodes p)) as ->.
      { rewrite <- (Z.mul_1_l (Z.of_nat _)), <- (zsumf_const 1 (dval d l2)).
        rewrite (zsumf_sublist (fun _ => 1) c (dval d l2) (mnodes p)); [|apply Hd|apply NoDup_mnodes| |].
        - apply zsumf_ext. intros; lia.
        - intros i Hin. apply Hd in Hin as (B & Hn & E). unfold c. rewrite B, E, ind_true by done. split; [|done]. by apply el_in in E as [? _].
        - intros i _ Hin. destruct (Hc i) as [|H1]; [done|]. exfalso. apply Hin, Hd. unfold c in H1.
          destruct (bl_01 l x i) as [E1|E1]; rewrite E1 in H1; [lia|]. destruct (el_01 i l2) as [E2|E2]; rewrite E2 in H1; [lia|].
          unfold ind in H1. destruct (decide (l2 <> l)); [done|lia]. }
      rewrite <- (sq_sum c (mnodes p) NoDup_mnodes Hc). apply zsumf_ext. intros i _. unfold c at 1.
      rewrite Z.mul_assoc. destruct (ind_01 (l2 <> l)) as [Hz|Ho].
      - rewrite Hz. lia.
      - rewrite Ho. rewrite (zsumf_ext (fun j => ind (j <> i) * c j) (fun j => ind (j <> i) * el p j l2 * bl p l j x)); [lia|].
        intros j _. unfold c. rewrite Ho, (bl_sym l x j). lia.
    Qed.
    Lemma c_acfcac : cyc_acfcac p m x l = Ok (SA l x (fun i => SC l i (fun l2 => SF l2 i (fun j => SC l2 j (fun l3 => ind (l3 <> l) * bl p l3 j x))))).
    Proof.
      pose proof (el_in _ _ E0) as [_ I0]. unfold cyc_acfcac.
      rewrite (rsum_SA l m x _ (fun i => SC l x (fun l3 => SA l3 x (fun j => ind (i <> j) *
        zsumf (fun l2 => ind (l2 <> l) * ind (l2 <> l3) * el p i l2 * el p j l2) (lays p))))); [|done|].
      - f_equal. apply SA_ext. intros i Bi. unfold SC, SF, SA.
        rewrite (zsumf_ext (fun l3 => ind (l3 <> l) * el p x l3 * _) (fun l3 => zsumf (fun j => zsumf (fun l2 =>
           ind (l3 <> l) * (bl p l3 x j * (ind (j <> i) * (ind (l2 <> l) * ind (l2 <> l3) * el p i l2 * el p j l2)))) (lays p)) (mnodes p))).
        2:{ intros l3 _. rewrite <- zsumf_mul_l. apply zsumf_ext. intros j _. rewrite !zsumf_mul_l. rewrite (ind_iff (i <> j) (j <> i)) by (split; congruence).
            destruct (bl_01 l3 x j) as [->|B]; [lia|]. rewrite B. apply bl_el in B as [-> _]. lia. }
        rewrite (zsumf_ext (fun l2 => ind (l2 <> l) * el p i l2 * _) (fun l2 => zsumf (fun j => zsumf (fun l3 =>
           ind (l3 <> l) * (bl p l3 x j * (ind (j <> i) * (ind (l2 <> l) * ind (l2 <> l3) * el p i l2 * el p j l2)))) (lays p)) (mnodes p))).
        2:{ intros l2 _. rewrite <- zsumf_mul_l. apply zsumf_ext. intros j _. rewrite <- !zsumf_mul_l. apply zsumf_ext. intros l3 _.
            rewrite (bl_sym l3 x j), (ind_iff (l2 <> l3) (l3 <> l2)) by (split; congruence).
            destruct (bl_01 l3 j x) as [->|B]; [lia|]. rewrite B. apply bl_el in B as [-> _]. lia. }
        rewrite (zsumf_swap _ (lays p) (mnodes p)), (zsumf_swap _ (lays p) (mnodes p)). apply zsumf_ext. intros j _. by rewrite zsumf_swap.
      - intros i Bi. pose proof (proj2 (bl_el _ _ _ Bi)) as Ei. apply rsum_SC; [done|]. intros l3 H3 E3. pose proof (el_in _ _ E3) as [_ I3].
        apply rsum_lay; [done|]. intros j Bj. pose proof (proj2 (bl_el _ _ _ Bj)) as Ej.
        unfold ind at 1. destruct (decide (i <> j)) as [Hij|]; [|done].
        destruct (coup_layers_eq i l Ei) as (ci & Hci & _ & _ & ->). destruct (coup_layers_eq j l3 Ej) as (cj & Hcj & _ & _ & ->).
        cbn [rbind]. destruct (decide _).
        + rewrite (rsum_SC l3 j _ (fun l2 => ind (l2 <> l) * el p i l2)); [|done|].
          * f_equal. unfold SC. rewrite Z.mul_1_l. apply zsumf_ext. intros l2 _. lia.
          * intros l2 Hl2 E2. unfold ind. destruct (decide (l2 <> l)); [|done]. rewrite cpl1_eq; [|done|by apply el_in in E2 as [_ ?]|done].
            rewrite Ei. done.
        + rewrite (rsum_SC l i _ (fun l2 => ind (l2 <> l3) * el p j l2)); [|done|].
          * f_equal. unfold SC. rewrite Z.mul_1_l. apply zsumf_ext. intros l2 _. lia.
          * intros l2 Hl2 E2. unfold ind. destruct (decide (l2 <> l3)); [|done]. rewrite cpl1_eq; [|done|by apply el_in in E2 as [_ ?]|done].
            rewrite Ej. done.
    Qed.

    (** Fully interconnected networks: some of the counts need no loop. *)
    Lemma fi_el i k : mfic p = true -> i ∈ mnodes p -> k ∈ lays p -> el p i k = 1.
    Proof. intros Hf Hin [mk Hk]%lay_view. apply (el_view _ _ _ Hk). by rewrite (pA_nodes_fic _ _ _ Hk Hf). Qed.
    Lemma fi_SC k i f : mfic p = true -> i ∈ mnodes p -> SC k i f = zsumf (fun l2 => ind (l2 <> k) * f l2) (lays p).
    Proof. intros Hf Hin. apply zsumf_ext. intros l2 Hl2. rewrite (fi_el i l2) by done. lia. Qed.
    Lemma fi_SF k i f : mfic p = true -> k ∈ lays p -> SF k i f = zsumf (fun j => ind (j <> i) * f j) (mnodes p).
    Proof. intros Hf Hin. apply zsumf_ext. intros j Hj. rewrite (fi_el j k) by done. lia. Qed.
    Lemma n_skip1 k : k ∈ lays p -> zsumf (fun l2 => ind (l2 <> k) * 1) (lays p) = Z.of_nat (length (lays p)) - 1.
    Proof. intros Hk. rewrite (zsumf_skip (fun _ => 1) _ k NoDup_lays), decide_True, zsumf_const by done. lia. Qed.
    Lemma n_skip2 k k2 : k ∈ lays p -> k2 ∈ lays p -> k <> k2 ->
      zsumf (fun l2 => ind (l2 <> k) * ind (l2 <> k2)) (lays p) = Z.of_nat (length (lays p)) - 2.
    Proof.
      intros Hk Hk2 Hne. rewrite (zsumf_skip (fun l2 => ind (l2 <> k2)) _ k NoDup_lays), decide_True by done.
      rewrite (ind_true (k <> k2)) by done.
      rewrite (zsumf_ext (fun l2 => ind (l2 <> k2)) (fun l2 => ind (l2 <> k2) * 1)) by (intros; lia). rewrite n_skip1 by done. lia.
    Qed.
    Lemma nb_in k i j : bl p k i j = 1 -> i ∈ mnodes p /\ j ∈ mnodes p /\ k ∈ lays p.
    Proof. intros [H1 H2]%bl_el. apply el_in in H1 as [??]. apply el_in in H2 as [??]. done. Qed.
    Lemma fi_acfac : mfic p = true -> SA l x (fun i => SF l i (fun j => SC l j (fun l2 => bl p l2 j x))) =
      SA l x (fun i => SC l i (fun l2 => SF l2 i (fun j => bl p l2 j x))).
    Proof.
      intros Hf. apply SA_ext. intros i (_ & Hin & Hl)%nb_in. rewrite fi_SF, fi_SC by done.
      rewrite (zsumf_ext (fun j => ind (j <> i) * _) (fun j => zsumf (fun l2 => ind (j <> i) * (ind (l2 <> l) * bl p l2 j x)) (lays p))).
      2:{ intros j Hj. rewrite fi_SC by done. by rewrite zsumf_mul_l. }
      rewrite zsumf_swap. apply zsumf_ext. intros l2 Hl2. rewrite fi_SF by done. rewrite <- zsumf_mul_l. apply zsumf_ext. intros; lia.
    Qed.
    Lemma fi_acfca : mfic p = true -> cyc_afa m x * (Z.of_nat (length (lays p)) - 1) =
      SA l x (fun i => SC l i (fun l2 => SF l2 i (fun j => bl p l j x))).
    Proof.
      intros Hf. rewrite c_afa. unfold SA at 1. rewrite <- zsumf_mul_r. apply zsumf_ext. intros i _. destruct (bl_01 l x i) as [->|B]; [lia|].
      rewrite B. apply nb_in in B as (_ & Hin & Hl). rewrite fi_SC by done.
      rewrite (zsumf_ext (fun l2 => ind (l2 <> l) * _) (fun l2 => ind (l2 <> l) * 1 * SF l i (fun j => bl p l j x))).
      - rewrite zsumf_mul_r, n_skip1 by done. lia.
      - intros l2 Hl2. rewrite !fi_SF by done. lia.
    Qed.
    Lemma fi_acfcac : mfic p = true ->
      SA l x (fun i => SF l i (fun j => SC l j (fun l2 => bl p l2 j x))) * (Z.of_nat (length (lays p)) - 2) =
      SA l x (fun i => SC l i (fun l2 => SF l2 i (fun j => SC l2 j (fun l3 => ind (l3 <> l) * bl p l3 j x)))).
    Proof.
      intros Hf. unfold SA at 1. rewrite <- zsumf_mul_r. apply zsumf_ext. intros i _. destruct (bl_01 l x i) as [->|B]; [lia|].
      rewrite B. apply nb_in in B as (_ & Hin & Hl). rewrite fi_SC, fi_SF by done. rewrite !Z.mul_1_l, <- zsumf_mul_r.
      rewrite (zsumf_ext (fun l2 => ind (l2 <> l) * _) (fun l2 => zsumf (fun j => zsumf (fun l3 =>
        ind (j <> i) * ((ind (l3 <> l) * bl p l3 j x) * (ind (l2 <> l) * ind (l2 <> l3)))) (lays p)) (mnodes p))).
      2:{ intros l2 Hl2. rewrite fi_SF by done. rewrite <- zsumf_mul_l. apply zsumf_ext. intros j Hj. rewrite fi_SC by done.
          rewrite <- !zsumf_mul_l. apply zsumf_ext. intros l3 _. rewrite (ind_iff (l2 <> l3) (l3 <> l2)) by (split; congruence). lia. }
      rewrite (zsumf_swap _ (lays p) (mnodes p)). apply zsumf_ext. intros j Hj. rewrite fi_SC by done.
      rewrite (zsumf_swap _ (lays p) (lays p)). rewrite <- zsumf_mul_l, <- zsumf_mul_r. apply zsumf_ext. intros l3 Hl3.
      rewrite !zsumf_mul_l. destruct (decide (l3 <> l)) as [Hne|Hne]; [|rewrite !(ind_false (l3 <> l)) by done; lia]. rewrite !(ind_true (l3 <> l)) by done. rewrite n_skip2 by congruence. lia.
    Qed.
    Theorem c_bf : cc_cycle_vector_bf p x l = Ok (counts x l).
    Proof.
      unfold cc_cycle_vector_bf, intra. rewrite decide_True by apply p_asp. rewrite Hm. cbn [rbind].
      rewrite c_aacac, c_acaac, c_acaca, c_acacac, c_afcac. cbn [rbind]. unfold counts. destruct (mfic p) eqn:Hf.
      - rewrite layers1_eq. cbn [rbind]. rewrite c_aaa, <- c_afa, <- fi_acfac, <- fi_acfca, <- fi_acfcac by done. done.
      - rewrite c_acfac, c_acfca, c_acfcac. cbn [rbind]. by rewrite c_aaa, c_afa.
    Qed.
  End Code.
  (** A node that is not on the layer. *)
  Lemma absent_bl x l y : el p x l <> 1 -> bl p l x y = 0.
  Proof. intros E. destruct (bl_01 l x y) as [|B]; [done|]. by apply bl_el in B as [??]. Qed.
  Lemma absent_nbs x l m : pA p (LBare l) = Some m -> el p x l <> 1 -> nbs0 m x = [].
  Proof.
    intros Hm E. destruct (nbs0 m x) as [|y L] eqn:Ex; [done|]. assert (y ∈ nbs0 m x) as Hy by (rewrite Ex; left).
    apply (elem_of_nbs0 _ _ _ _ Hm) in Hy. rewrite absent_bl in Hy; [lia|done].
  Qed.
  Lemma absent_coup x l : l ∈ lays p -> el p x l <> 1 -> exists cs, coup_layers p x l = Ok cs /\ forall l2, l2 ∈ cs -> l2 ∈ lays p /\ el p x l2 <> 1.
  Proof.
    intros Hl E. apply lay_view in Hl as HA. destruct HA as [m Hm].
    unfold coup_layers, mp_iter, piter, pdir. rewrite p_dir, select_coup.
    cbn [rmapM]. rewrite decide_False by lia. unfold iter_dim.
    cbn [Nat.sub lookup list_lookup]. rewrite (pi_coup _ _ _ _ _ _ Hi), lays_eq. cbn [lookup list_lookup].
    destruct (mfic p) eqn:Hf.
    - exists (filter (fun y => y <> l) (lays p)). cbn [rbind concat]. rewrite app_nil_r. split.
      + rewrite (rmapM_Ok_iff _ (fun b : nl => default l (b !! 1%nat))).
        * f_equal. rewrite <- list_fmap_compose. apply list_eq. intros k. rewrite list_lookup_fmap. by destruct (filter _ _ !! k).
        * intros b (y & -> & Hy)%elem_of_list_fmap. done.
      + intros l2 [_ Hl2]%elem_of_list_filter. split; [done|]. intros E2. apply E. apply fi_el; [done| |done]. by apply el_in in E2 as [? _].
    - rewrite p_asp. change (lkey 1 (tail [x; l])) with (LBare l). rewrite Hm. change (node_of [x; l]) with x.
      destruct (lin x (net_nodes m)) eqn:Ex; [|exists []; split; [done|by intros ? ?%elem_of_nil]].
      apply Base.lin_true, (el_view _ _ _ Hm) in Ex. done.
  Qed.
  Theorem c_bf_absent x l : l ∈ lays p -> el p x l <> 1 -> cc_cycle_vector_bf p x l = Ok (replicate 10 0).
  Proof.
    intros Hl E. apply lay_view in Hl as HA. destruct HA as [m Hm]. pose proof (absent_nbs x l m Hm E) as Hnb.
    assert (deg0 m x = 0) as Hd0 by (rewrite (deg0_len l m x Hm), Hnb; done).
    assert (cyc_afcac p m x l = Ok 0) as Hafc.
    { unfold cyc_afcac. destruct (absent_coup x l Hl E) as (cs & -> & Hcs). cbn [rbind].
      rewrite (rsum_ok _ (fun _ => 0)); [by rewrite zsumf_zero|]. intros l2 Hl2. apply Hcs in Hl2 as [Hl2 E2].
      apply lay_view in Hl2 as [m2 Hm2]. rewrite (proj1 (lay_nodes_eq x l2 m2 Hm2)), (absent_nbs x l2 m2 Hm2 E2). done. }
    unfold cc_cycle_vector_bf, intra. rewrite decide_True by apply p_asp. rewrite Hm. cbn [rbind].
    unfold cyc_aacac, cyc_acaac, cyc_acaca, cyc_acacac, cyc_acfac, cyc_acfca, cyc_acfcac, layer_to_node, cyc_aaa, tri0, cyc_afa.
    rewrite Hnb, Hd0, Hafc. cbn. rewrite layers1_eq. destruct (mfic p); done.
  Qed.
  Theorem c_bf_nolayer x l : l ∉ lays p -> cc_cycle_vector_bf p x l = Err KeyError.
  Proof.
    intros Hl. unfold cc_cycle_vector_bf, intra. rewrite decide_True by apply p_asp.
    destruct (pA p (LBare l)) eqn:Hm; [|done]. exfalso. apply Hl, lay_view. eauto.
  Qed.

  (** ** The version with the aggregated network *)
  Section Agg.
    Context (an : mlnet) (Hag : good an) (Haa : aspects an = 0%nat) (Han : noEdge an = 0) (Hand : directed an = false)
      (HW : forall i j, w0 an i j = zsumf (fun l => bl p l i j) (lays p)).
    Lemma W_sym i j : w0 an i j = w0 an j i.
    Proof. rewrite !HW. apply zsumf_ext. intros l _. apply bl_sym. Qed.
    Lemma W_self i : w0 an i i = 0.
    Proof. rewrite HW. apply zsumf_zero. intros l _. apply bl_self. Qed.
    Lemma W_out i j : i ∉ mnodes p -> w0 an i j = 0.
    Proof. intros Hn. rewrite HW. apply zsumf_zero. intros l _. destruct (bl_01 l i j) as [|B]; [done|]. by apply nb_in in B as [??]. Qed.
    Lemma W_skip i j l : l ∈ lays p -> w0 an i j - bl p l i j = zsumf (fun l2 => ind (l2 <> l) * bl p l2 i j) (lays p).
    Proof. intros Hl. rewrite (zsumf_skip (fun l2 => bl p l2 i j) _ l NoDup_lays), decide_True, HW by done. lia. Qed.
    Lemma an_linked x y : linked an [x] [y] <-> w0 an x y <> 0.
    Proof. symmetry. by apply w0_linked. Qed.
    Lemma an_nbs_in x y : y ∈ nbs0 an x <-> w0 an x y <> 0.
    Proof.
      destruct (iter_total_exact an [x] None Hag I) as [HN HE]. unfold nbs0. rewrite elem_of_list_fmap. split.
      - intros (c & -> & Hc). apply HE in Hc as [Hc _].
        assert (length c = 1%nat) as Hl by (destruct Hc as [(_ & Hl & _)|(Hl & _)]; by rewrite Haa in Hl).
        destruct c as [|c []]; try done. change (node_of [c]) with c. destruct Hc as [Hc|Hc]; apply an_linked in Hc; [done|by rewrite W_sym].
      - intros Hl. exists [y]. split; [done|]. apply HE. split; [|done]. left. by apply an_linked.
    Qed.
    Lemma an_nbs_NoDup x : NoDup (nbs0 an x).
    Proof.
      destruct (iter_total_exact an [x] None Hag I) as [HN HE]. unfold nbs0. apply NoDup_fmap_2_strong; [|done]. intros a b Ha' Hb' He.
      assert (forall c, c ∈ iter_total an [x] None -> length c = 1%nat) as Hl.
      { intros c Hc. apply HE in Hc as [[(_ & Hc & _)|(Hc & _)] _]; by rewrite Haa in Hc. }
      pose proof (Hl a Ha') as La. pose proof (Hl b Hb') as Lb.
      destruct a as [|a []]; try done. destruct b as [|b []]; try done. unfold node_of in He. simpl in He. congruence.
    Qed.
    Lemma an_nbs_sum x f : (forall y, w0 an x y = 0 -> f y = 0) -> zsumf f (nbs0 an x) = zsumf f (mnodes p).
    Proof.
      intros Hf. rewrite (zsumf_sublist f (fun y => zne (w0 an x y) 0) (nbs0 an x) (mnodes p)); [|apply an_nbs_NoDup|apply NoDup_mnodes| |].
      - apply zsumf_ext. intros y _. unfold zne. destruct (decide _) as [E|]; [rewrite (Hf y E)|]; lia.
      - intros y Hy%an_nbs_in. unfold zne. rewrite decide_False by done. split; [|done].
        destruct (decide (y ∈ mnodes p)) as [|Hn]; [done|]. rewrite W_sym, W_out in Hy; done.
      - intros y _ Hy. rewrite an_nbs_in in Hy. unfold zne. destruct (decide _) as [|Hn]; [done|]. by destruct Hy.
    Qed.
    Section OneLayer.
    Context (x l : name) (m : mlnet) (Hm : pA p (LBare l) = Some m).
    Let Hl : l ∈ lays p. Proof. apply lay_view. eauto. Qed.
    Lemma a_aacac : any_aacac p an m x l = Ok (SA l x (fun i => SA l i (fun j => SC l j (fun l2 => bl p l2 j x)))).
    Proof.
      unfold any_aacac. apply (rsum_SA l); [done|]. intros i Bi. apply (rsum_SA l); [done|]. intros j Bj.
      rewrite lnk3_eq. cbn [rbind]. f_equal. by rewrite W_skip, SC_bl.
    Qed.
    Lemma a_acaca : rmap (fun v => v * 2) (any_acaca p an m x l) = Ok (SA l x (fun i => SC l i (fun l2 => SA l2 i (fun j => bl p l j x)))).
    Proof.
      rewrite <- (c_acaca x l m Hm). unfold any_acaca, cyc_acaca. destruct (decide _); [|done].
      rewrite (rsum_ok _ (fun q : name * name => zsumf (fun l2 => ind (l2 <> l) * bl p l2 (q.1) (q.2)) (lays p))).
      2:{ intros q Hq. rewrite lnk3_eq. cbn [rbind]. by rewrite W_skip. }
      rewrite (rsum_ok _ (fun q : name * name => zsumf (fun l2 => ind (l2 <> l) * bl p l2 (q.1) (q.2)) (lays p))).
      2:{ intros q Hq. apply pairs2_elem in Hq as [Hq _]. apply (elem_of_nbs0 _ _ _ _ Hm), bl_el in Hq as [_ Hq].
          rewrite <- SC_bl. apply rsum_SC; [done|]. intros l2 _ _. apply lnk1_eq. }
      done.
    Qed.
    Lemma a_acacac : any_acacac p an m x l =
      Ok (SA l x (fun i => SC l i (fun l2 => SA l2 i (fun j => SC l2 j (fun l3 => ind (l3 <> l) * bl p l3 j x))))).
    Proof.
      unfold any_acacac. apply (rsum_SA l); [done|]. intros i Bi. apply rsum_SC; [by apply bl_el in Bi as [_ ?]|].
      intros l2 Hl2 E2. pose proof (el_in _ _ E2) as [_ I2]. apply rsum_lay; [done|]. intros j Bj. rewrite !lnk3_eq. cbn [rbind]. f_equal.
      rewrite W_skip by done.
      assert (bl p l2 j x = ind (l2 <> l) * bl p l2 j x) as Hb by (rewrite ind_true by done; lia).
      rewrite Hb. pose proof (zsumf_skip (fun l0 => ind (l0 <> l) * bl p l0 j x) (lays p) l2 NoDup_lays) as Hk. rewrite decide_True in Hk by done.
      rewrite <- Hk. apply zsumf_ext. intros l3 _.
      destruct (bl_01 l3 j x) as [->|B]; [lia|]. rewrite B. apply bl_el in B as [-> _]. lia.
    Qed.
    Lemma a_afcac : mfic p = true -> x ∈ mnodes p -> any_afcac p an m x l = Ok (SA l x (fun i => SF l i (fun j => SC l j (fun l2 => bl p l2 j x)))).
    Proof.
      intros Hf Hx. assert (el p x l = 1) as E0 by by apply fi_el.
      unfold any_afcac. rewrite (rsum_ok _ (fun i => (deg0 m x - bl p l x i) * (w0 an i x - bl p l i x))).
      - f_equal. rewrite an_nbs_sum.
        2:{ intros y Hy. assert (w0 an y x - bl p l y x = 0) as ->; [|lia]. rewrite W_skip by done. apply zsumf_zero. intros l2 Hl2.
            rewrite W_sym, HW in Hy. assert (bl p l2 y x = 0) as ->; [|lia].
            destruct (bl_01 l2 y x) as [|B]; [done|]. exfalso.
            assert (bl p l2 y x <= zsumf (fun l => bl p l y x) (lays p)); [|lia].
            apply (zsumf_elem_le (fun l => bl p l y x)); [|done]. intros k. destruct (bl_01 k y x); lia. }
        rewrite (SA_ext l x (fun i => SF l i _) (fun i => SF l i (fun j => w0 an j x - bl p l j x))).
        2:{ intros i _. apply SF_ext. intros j _ _. by rewrite SC_bl, W_skip. }
        unfold SA. rewrite (zsumf_ext (fun i => bl p l x i * _) (fun i => zsumf (fun j => bl p l x i * (ind (j <> i) * (w0 an j x - bl p l j x))) (mnodes p))).
        2:{ intros i _. rewrite fi_SF by done. by rewrite zsumf_mul_l. }
        rewrite zsumf_swap. apply zsumf_ext. intros j Hj.
        rewrite (zsumf_ext (fun i => bl p l x i * _) (fun i => ind (i <> j) * bl p l x i * (w0 an j x - bl p l j x))).
        2:{ intros i _. rewrite (ind_iff (j <> i) (i <> j)) by (split; congruence). lia. }
        rewrite zsumf_mul_r, (zsumf_skip (fun i => bl p l x i) _ j NoDup_mnodes), decide_True by done.
        replace (zsumf (fun i => bl p l x i) (mnodes p)) with (deg0 m x); [done|].
        rewrite <- (SA_len x l m Hm). apply zsumf_ext. intros; lia.
      - intros i _. rewrite lnk3_eq. cbn [rbind]. f_equal. rewrite (deg0_len l m x Hm), (bl_sym l x i).
        rewrite (decide_ext (i ∈ nbs0 m x) (bl p l i x = 1)) by (rewrite bl_sym; apply (elem_of_nbs0 _ _ _ _ Hm)).
        destruct (bl_01 l i x) as [->| ->]; repeat destruct (decide _); lia.
    Qed.
    Theorem c_anet : mfic p = true -> x ∈ mnodes p -> cc_cycle_vector_anet p x (Some l) an = Ok (counts x l).
    Proof.
      intros Hf Hx. assert (el p x l = 1) as E0 by by apply fi_el.
      unfold cc_cycle_vector_anet, intra. rewrite decide_True by apply p_asp. rewrite Hf, layers1_eq. cbn [rbind]. rewrite Hm. cbn [rbind].
      pose proof a_acaca as H4. rewrite a_aacac, (c_acaac x l m Hm), a_acacac, a_afcac by done.
      destruct (any_acaca p an m x l) as [v4|]; [|done]. injection H4 as H4. cbn [rbind]. unfold counts.
      by rewrite H4, (c_aaa x l m Hm), <- (c_afa x l m Hm), <- (fi_acfac x l Hf), <- (fi_acfca x l m Hm Hf), <- (fi_acfcac x l Hf).
    Qed.
    End OneLayer.

    (** Closed walks x-i-j-x whose links are on the layers [l1], [l2], [l3]. *)
    Definition TT (x l1 l2 l3 : name) : Z := zsumf (fun i => zsumf (fun j => bl p l1 x i * bl p l2 i j * bl p l3 j x) (mnodes p)) (mnodes p).
    Lemma TT_rev x l1 l2 l3 : TT x l1 l2 l3 = TT x l3 l2 l1.
    Proof.
      unfold TT. rewrite zsumf_swap. apply zsumf_ext. intros i _. apply zsumf_ext. intros j _.
      rewrite (bl_sym l1 x j), (bl_sym l2 j i), (bl_sym l3 i x). lia.
    Qed.
    Lemma split_at (f : name -> Z) k : k ∈ lays p -> zsumf f (lays p) = f k + zsumf (fun l2 => ind (l2 <> k) * f l2) (lays p).
    Proof. intros Hk. rewrite (zsumf_skip f _ k NoDup_lays), decide_True by done. lia. Qed.
    Lemma t_aaa x l : SA l x (fun i => SA l i (fun j => bl p l j x)) = TT x l l l.
    Proof. apply zsumf_ext. intros i _. unfold SA. rewrite <- zsumf_mul_l. apply zsumf_ext. intros; lia. Qed.
    Lemma t_aacac x l : SA l x (fun i => SA l i (fun j => SC l j (fun l2 => bl p l2 j x))) = zsumf (fun l3 => ind (l3 <> l) * TT x l l l3) (lays p).
    Proof.
      unfold TT. rewrite (zsumf_ext (fun l3 => ind (l3 <> l) * _) (fun l3 => zsumf (fun i => zsumf (fun j => ind (l3 <> l) * (bl p l x i * bl p l i j * bl p l3 j x)) (mnodes p)) (mnodes p))).
      2:{ intros. rewrite <- zsumf_mul_l. apply zsumf_ext. intros. by rewrite zsumf_mul_l. }
      rewrite zsumf_swap. apply zsumf_ext. intros i _. unfold SA. rewrite zsumf_swap, <- zsumf_mul_l. apply zsumf_ext. intros j _.
      rewrite SC_bl. rewrite <- !zsumf_mul_l. apply zsumf_ext. intros; lia.
    Qed.
    Lemma t_acaac x l : SA l x (fun i => SC l i (fun l2 => SA l2 i (fun j => bl p l2 j x))) = zsumf (fun l2 => ind (l2 <> l) * TT x l l2 l2) (lays p).
    Proof.
      unfold TT. rewrite (zsumf_ext (fun l2 => ind (l2 <> l) * _) (fun l2 => zsumf (fun i => ind (l2 <> l) * zsumf (fun j => bl p l x i * bl p l2 i j * bl p l2 j x) (mnodes p)) (mnodes p))) by (intros; by rewrite zsumf_mul_l).
      rewrite zsumf_swap. apply zsumf_ext. intros i _. unfold SA, SC. rewrite <- zsumf_mul_l. apply zsumf_ext. intros l2 _.
      rewrite <- !zsumf_mul_l. apply zsumf_ext. intros j _. destruct (bl_01 l2 i j) as [->|B]; [lia|]. rewrite B. apply bl_el in B as [-> _]. lia.
    Qed.
    Lemma t_acaca x l : SA l x (fun i => SC l i (fun l2 => SA l2 i (fun j => bl p l j x))) = zsumf (fun l2 => ind (l2 <> l) * TT x l l2 l) (lays p).
    Proof.
      unfold TT. rewrite (zsumf_ext (fun l2 => ind (l2 <> l) * _) (fun l2 => zsumf (fun i => ind (l2 <> l) * zsumf (fun j => bl p l x i * bl p l2 i j * bl p l j x) (mnodes p)) (mnodes p))) by (intros; by rewrite zsumf_mul_l).
      rewrite zsumf_swap. apply zsumf_ext. intros i _. unfold SA, SC. rewrite <- zsumf_mul_l. apply zsumf_ext. intros l2 _.
      rewrite <- !zsumf_mul_l. apply zsumf_ext. intros j _. destruct (bl_01 l2 i j) as [->|B]; [lia|]. rewrite B. apply bl_el in B as [-> _]. lia.
    Qed.
    Lemma t_acacac x l : SA l x (fun i => SC l i (fun l2 => SA l2 i (fun j => SC l2 j (fun l3 => ind (l3 <> l) * bl p l3 j x)))) =
      zsumf (fun l2 => ind (l2 <> l) * zsumf (fun l3 => ind (l3 <> l2) * (ind (l3 <> l) * TT x l l2 l3)) (lays p)) (lays p).
    Proof.
      unfold TT. rewrite (zsumf_ext (fun l2 => ind (l2 <> l) * _) (fun l2 => zsumf (fun i => zsumf (fun j => zsumf (fun l3 =>
         ind (l2 <> l) * (ind (l3 <> l2) * (ind (l3 <> l) * (bl p l x i * bl p l2 i j * bl p l3 j x)))) (lays p)) (mnodes p)) (mnodes p))).
      2:{ intros l2 _.
          rewrite (zsumf_ext (fun l3 => ind (l3 <> l2) * _) (fun l3 => zsumf (fun i => zsumf (fun j => ind (l3 <> l2) * (ind (l3 <> l) * (bl p l x i * bl p l2 i j * bl p l3 j x))) (mnodes p)) (mnodes p))).
          2:{ intros l3 _. rewrite <- !zsumf_mul_l. apply zsumf_ext. intros i _. rewrite <- !zsumf_mul_l. done. }
          rewrite zsumf_swap, <- zsumf_mul_l. apply zsumf_ext. intros i _. rewrite zsumf_swap, <- zsumf_mul_l. apply zsumf_ext. intros j _. by rewrite zsumf_mul_l. }
      rewrite zsumf_swap. apply zsumf_ext. intros i _. unfold SA, SC. rewrite <- zsumf_mul_l. apply zsumf_ext. intros l2 _.
      rewrite <- !zsumf_mul_l. apply zsumf_ext. intros j _. rewrite <- !zsumf_mul_l. apply zsumf_ext. intros l3 _.
      destruct (bl_01 l3 j x) as [->|B3]; [lia|]. rewrite B3. apply bl_el in B3 as [-> _].
      destruct (bl_01 l2 i j) as [->|B]; [lia|]. rewrite B. apply bl_el in B as [-> _]. lia.
    Qed.
    Lemma t_tot x : 2 * any_tot p an x = zsumf (fun l1 => zsumf (fun l2 => zsumf (fun l3 => TT x l1 l2 l3) (lays p)) (lays p)) (lays p).
    Proof.
      unfold any_tot. rewrite p_noe.
      assert ((if decide (2 <= deg0 an x) then zsumf (fun q : name * name => if decide (w0 an (q.1) (q.2) = 0) then 0 else w0 an x (q.1) * w0 an (q.1) (q.2) * w0 an (q.2) x) (pairs2 (nbs0 an x)) else 0)
        = zsumf (fun q : name * name => w0 an x (q.1) * w0 an (q.1) (q.2) * w0 an (q.2) x) (pairs2 (nbs0 an x))) as ->.
      { destruct (decide _) as [|Hd].
        - apply zsumf_ext. intros q _. destruct (decide _) as [->|]; lia.
        - unfold nbs0. unfold deg0 in Hd. rewrite pairs2_short; [done|]. rewrite fmap_length. unfold degree in Hd. rewrite Hand, degree_out_iter in Hd. unfold iter_total. rewrite Hand. lia. }
      rewrite <- (zsumf_pairs2 (fun i j => w0 an x i * w0 an i j * w0 an j x)).
      2:{ intros i j. rewrite (W_sym i j), (W_sym x i), (W_sym j x). lia. }
      2:{ intros i _. rewrite W_self. lia. }
      rewrite an_nbs_sum.
      2:{ intros y Hy. apply zsumf_zero. intros j _. rewrite Hy. lia. }
      rewrite (zsumf_ext (fun i => zsumf _ (nbs0 an x)) (fun i => zsumf (fun j => w0 an x i * w0 an i j * w0 an j x) (mnodes p))).
      2:{ intros i _. apply an_nbs_sum. intros y Hy. rewrite (W_sym y x), Hy. lia. }
      assert (forall i j, w0 an x i * w0 an i j * w0 an j x = zsumf (fun l1 => zsumf (fun l2 => zsumf (fun l3 => bl p l1 x i * bl p l2 i j * bl p l3 j x) (lays p)) (lays p)) (lays p)) as Hx.
      { intros i j. rewrite (HW x i), (HW i j), (HW j x). rewrite <- Z.mul_assoc, <- zsumf_mul_r. apply zsumf_ext. intros l1 _.
        rewrite <- zsumf_mul_r, <- zsumf_mul_l. apply zsumf_ext. intros l2 _. by rewrite Z.mul_assoc, <- zsumf_mul_l. }
      rewrite (zsumf_ext (fun i => zsumf _ (mnodes p)) (fun i => zsumf (fun l1 => zsumf (fun l2 => zsumf (fun l3 => zsumf (fun j =>
        bl p l1 x i * bl p l2 i j * bl p l3 j x) (mnodes p)) (lays p)) (lays p)) (lays p))).
      2:{ intros i _. rewrite (zsumf_ext _ _ _ (fun j _ => Hx i j)). rewrite zsumf_swap. apply zsumf_ext. intros l1 _. rewrite zsumf_swap. apply zsumf_ext. intros l2 _. by rewrite zsumf_swap. }
      rewrite zsumf_swap. apply zsumf_ext. intros l1 _. rewrite zsumf_swap. apply zsumf_ext. intros l2 _. by rewrite zsumf_swap.
    Qed.
    Lemma t_split x l1 : l1 ∈ lays p -> zsumf (fun l2 => zsumf (fun l3 => TT x l1 l2 l3) (lays p)) (lays p) =
      TT x l1 l1 l1 + zsumf (fun l3 => ind (l3 <> l1) * TT x l1 l1 l3) (lays p) + zsumf (fun l2 => ind (l2 <> l1) * TT x l1 l2 l2) (lays p)
      + zsumf (fun l2 => ind (l2 <> l1) * TT x l1 l2 l1) (lays p)
      + zsumf (fun l2 => ind (l2 <> l1) * zsumf (fun l3 => ind (l3 <> l2) * (ind (l3 <> l1) * TT x l1 l2 l3)) (lays p)) (lays p).
    Proof.
      intros Hl. rewrite (split_at _ l1 Hl), (split_at (fun l3 => TT x l1 l1 l3) l1 Hl). rewrite <- !Z.add_assoc. do 2 f_equal.
      rewrite <- !zsumf_add. apply zsumf_ext. intros l2 Hl2. rewrite (split_at (fun l3 => TT x l1 l2 l3) l2 Hl2).
      destruct (decide (l2 <> l1)) as [Hne|Hne]; [rewrite !(ind_true (l2 <> l1)) by done|rewrite !(ind_false (l2 <> l1)) by done; lia].
      rewrite (split_at (fun l3 => ind (l3 <> l2) * TT x l1 l2 l3) l1 Hl). rewrite (ind_true (l1 <> l2)) by congruence.
      rewrite (zsumf_ext (fun l3 => ind (l3 <> l1) * (ind (l3 <> l2) * TT x l1 l2 l3)) (fun l3 => ind (l3 <> l2) * (ind (l3 <> l1) * TT x l1 l2 l3))) by (intros; lia). lia.
    Qed.
    Lemma rsum_lays (f : mlnet -> name -> res Z) g : (forall l m, pA p (LBare l) = Some m -> f m l = Ok (g l)) ->
      rsum (fun l => let? m := intra p (LBare l) in f m l) (lays p) = Ok (zsumf g (lays p)).
    Proof. intros H. apply rsum_ok. intros l (m & -> & Hm)%intra_eq. cbn [rbind]. by apply H. Qed.
    Theorem c_anet_all x : mfic p = true -> x ∈ mnodes p -> cc_cycle_vector_anet p x None an = Ok (vsum (counts x <$> lays p)).
    Proof.
      intros Hf Hx. unfold counts. rewrite vsum10.
      unfold cc_cycle_vector_anet. rewrite decide_True by apply p_asp. rewrite Hf, layers1_eq. cbn [rbind].
      set (N1 := fun l => match pA p (LBare l) with Some m => tri0 m x | None => 0 end).
      set (N4 := fun l => match pA p (LBare l) with Some m => match any_acaca p an m x l with Ok v => v | _ => 0 end | None => 0 end).
      rewrite (rsum_lays (fun m l => Ok (tri0 m x)) N1) by (intros l m Hm; unfold N1; by rewrite Hm).
      rewrite (rsum_lays (fun m l => any_aacac p an m x l) (fun l => SA l x (fun i => SA l i (fun j => SC l j (fun l2 => bl p l2 j x))))) by (intros; by apply a_aacac).
      assert (forall l m, pA p (LBare l) = Some m -> any_acaca p an m x l = Ok (N4 l) /\ N4 l * 2 = SA l x (fun i => SC l i (fun l2 => SA l2 i (fun j => bl p l j x)))) as H4.
      { intros l m Hm. unfold N4. rewrite Hm. pose proof (a_acaca x l m Hm) as H4. destruct (any_acaca p an m x l); [|done]. injection H4 as H4. done. }
      rewrite (rsum_lays (fun m l => any_acaca p an m x l) N4) by (intros l m Hm; by apply H4).
      rewrite (rsum_lays (fun m l => Ok (cyc_afa m x)) (fun l => SA l x (fun i => SF l i (fun j => bl p l j x)))) by (intros l m Hm; by rewrite (c_afa x l m Hm)).
      rewrite (rsum_lays (fun m l => any_afcac p an m x l) (fun l => SA l x (fun i => SF l i (fun j => SC l j (fun l2 => bl p l2 j x))))) by (intros; by apply a_afcac).
      cbn [rbind]. rewrite <- !zsumf_mul_r.
      rewrite (zsumf_ext (fun l => N1 l * 2) (fun l => SA l x (fun i => SA l i (fun j => bl p l j x)))).
      2:{ intros l (m & Hm)%lay_view. rewrite <- (c_aaa x l m Hm). unfold N1, cyc_aaa. rewrite Hm. lia. }
      rewrite (zsumf_ext (fun l => N4 l * 2) (fun l => SA l x (fun i => SC l i (fun l2 => SA l2 i (fun j => bl p l j x))))).
      2:{ intros l (m & Hm)%lay_view. by apply (H4 l m Hm). }
      assert (zsumf (fun l => SA l x (fun i => SA l i (fun j => SC l j (fun l2 => bl p l2 j x)))) (lays p) =
              zsumf (fun l => SA l x (fun i => SC l i (fun l2 => SA l2 i (fun j => bl p l2 j x)))) (lays p)) as H23.
      { rewrite (zsumf_ext _ _ _ (fun l _ => t_aacac x l)), (zsumf_ext _ _ _ (fun l _ => t_acaac x l)). rewrite zsumf_swap.
        apply zsumf_ext. intros l3 _. apply zsumf_ext. intros l _. rewrite TT_rev, (ind_iff (l3 <> l) (l <> l3)) by (split; congruence). done. }
      f_equal. f_equal. f_equal. f_equal; [done|]. f_equal. f_equal; [|f_equal; f_equal; f_equal; [|f_equal; [|f_equal]]].
      - rewrite t_tot, (zsumf_ext _ _ _ (fun l1 Hl1 => t_split x l1 Hl1)), !zsumf_add.
        rewrite H23 at 1. rewrite (zsumf_ext _ _ _ (fun l _ => t_aaa x l)), (zsumf_ext _ _ _ (fun l _ => t_acaac x l)), (zsumf_ext _ _ _ (fun l _ => t_acaca x l)).
        rewrite (zsumf_ext (fun l => SA l x (fun i => SA l i (fun j => SC l j (fun l2 => bl p l2 j x)))) _ _ (fun l _ => t_aacac x l)).
        rewrite (zsumf_ext _ _ _ (fun l _ => t_acacac x l)). 
        rewrite (zsumf_ext _ _ _ (fun l _ => t_aacac x l)), (zsumf_ext _ _ _ (fun l _ => t_acaac x l)) in H23. lia.
      - apply zsumf_ext. intros l _. by apply fi_acfac.
      - apply zsumf_ext. intros l (m & Hm)%lay_view. rewrite <- (c_afa x l m Hm). by apply fi_acfca.
      - apply zsumf_ext. intros l _. by apply fi_acfcac.
    Qed.
  End Agg.
End Prim.
