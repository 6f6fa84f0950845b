(** * C62, C63: the clustering coefficients of Brodka et al. and of Criado et al. *)
From Verif Require Import CcMore CcSpec PropsMpx MpxIter NetIter CcFacts CcGen CcAgg.
From Verif Require Import PropsCc PropsBat.
Open Scope Z_scope.

(** ** Specification *)
(** [x] and [y] are linked on layer [l], in either direction. *)
Definition link_on (p : mpx) (l x y : name) : Prop :=
  exists v, v <> 0 /\ (agetitem p (LBare l) [x; y] = Ok v \/ agetitem p (LBare l) [y; x] = Ok v).
(** [y] is linked to [x] on at least [t] layers, and on at least one. *)
Definition linked_on (p : mpx) (t : Z) (x y : name) : Prop :=
  exists Ly, lists_exactly Ly (fun l => link_on p l x y) /\ Ly <> [] /\ t <= Z.of_nat (length Ly).
(** The weights between the nodes [N] on the layers [Ls], each pair in both orders. *)
Definition weight_sum (a : name -> name -> name -> Z) (N Ls : list name) : Z :=
  zsumf (fun l => zsumf (fun v => zsumf (fun w => a l w v + a l v w) N) N) Ls.

(** ** Facts *)
Lemma bool_decide_eq_true_bool (b : bool) : bool_decide (b = true) = b.
Proof. by destruct b. Qed.
Definition lcb (p : mpx) (l x y : name) : bool := negb (bool_decide (wt p l x y = 0 /\ wt p l y x = 0)).
Lemma lcb_true p l x y : lcb p l x y = true <-> wt p l x y <> 0 \/ wt p l y x <> 0.
Proof. unfold lcb. rewrite negb_true_iff, bool_decide_eq_false. destruct (decide (wt p l x y = 0)), (decide (wt p l y x = 0)); tauto. Qed.
Lemma lcb_sym p l x y : lcb p l x y = lcb p l y x.
Proof. apply eq_true_iff_eq. rewrite !lcb_true. tauto. Qed.
Definition bump (d : dict name Z) (y : name) : dict name Z := dset d y (default 0 (dget d y) + 1).
Definition dcnt (d : dict name Z) (y : name) : Z := default 0 (dget d y).
Definition dpos (d : dict name Z) : Prop := NoDup (dkeys d) /\ forall k v, dget d k = Some v -> 0 < v.
Lemma bump_ok d y : dpos d -> dpos (bump d y) /\ forall k, dcnt (bump d y) k = dcnt d k + b2z (bool_decide (k = y)).
Proof.
  intros [Hk Hv]. unfold bump, dcnt. split; [split; [by apply NoDup_dset|]|].
  - intros k v. rewrite dget_dset. destruct (decide (k = y)); [|apply Hv]. intros [= <-]. destruct (dget d y) as [u|] eqn:E; simpl; [|lia]. specialize (Hv _ _ E). lia.
  - intros k. rewrite dget_dset. destruct (decide (k = y)) as [->|Hne]; [by rewrite bool_decide_true|]. rewrite bool_decide_false by done. simpl. lia.
Qed.
Lemma bumps_ok l d : dpos d -> NoDup l -> dpos (foldl bump d l) /\ forall k, dcnt (foldl bump d l) k = dcnt d k + b2z (bool_decide (k ∈ l)).
Proof.
  revert d. induction l as [|y l IH]; intros d Hd Hl; cbn [foldl].
  - split; [done|]. intros k. rewrite bool_decide_false by apply not_elem_of_nil. simpl. lia.
  - apply NoDup_cons in Hl as [Hy Hl]. destruct (bump_ok d y Hd) as [Hd' He]. destruct (IH _ Hd' Hl) as [H1 H2]. split; [done|]. intros k. rewrite H2, He.
    destruct (decide (k = y)) as [->|Hne].
    + rewrite (bool_decide_true (y = y)), (bool_decide_false (y ∈ l)), (bool_decide_true (y ∈ y :: l)) by (done || left). simpl. lia.
    + rewrite (bool_decide_false (k = y)) by done. simpl. rewrite Z.add_0_r. do 2 f_equal. apply bool_decide_ext. rewrite elem_of_cons. tauto.
Qed.
Lemma dget_cnt d y : dpos d -> is_Some (dget d y) <-> 0 < dcnt d y.
Proof.
  intros [_ Hv]. unfold dcnt. destruct (dget d y) as [v|] eqn:E; simpl.
  - specialize (Hv _ _ E). split; eauto.
  - split; [by intros []|lia].
Qed.

Definition ncnt (p : mpx) (x y : name) : Z := zsumf (fun l => b2z (lcb p l x y)) (lays p).
Lemma lays_pos p N x t : lists_exactly N (fun y => 0 < ncnt p x y /\ t <= ncnt p x y) -> N <> [] -> (0 < length (lays p))%nat.
  Proof.
    intros [_ HN] Hne. destruct N as [|y N]; [done|]. destruct (proj1 (HN y) ltac:(left)) as [Hy _]. unfold ncnt in Hy. destruct (lays p); [by rewrite zsumf_nil in Hy|simpl; lia].
  Qed.
Section Nbr.
  Context (cs : list coupling) (dir fi : bool) (h : list call) (p : mpx) (Hi : pinv cs dir 0 fi h p) (Hcs : length cs = 1%nat).
  Lemma lcb_nbs l m x y : pA p (LBare l) = Some m -> y ∈ nbs0 m x <-> lcb p l x y = true.
  Proof. intros Hm. by rewrite (g_elem_of_nbs0 cs dir fi h p Hi l m x y Hm), lcb_true. Qed.
  Lemma link_on_lcb l x y : link_on p l x y <-> lcb p l x y = true.
  Proof.
    rewrite lcb_true. unfold link_on. split.
    - intros (v & Hv & Hg). assert (l ∈ lays p) as Hl.
      { apply (g_lay_view cs dir fi h p Hi Hcs). unfold agetitem in Hg. destruct (pA p (LBare l)); [eauto|]. by destruct Hg. }
      rewrite !(g_aget cs dir fi h p Hi Hcs) in Hg by done. destruct Hg as [[= <-]|[= <-]]; auto.
    - intros [H|H]; pose proof (g_wt_lays cs dir fi h p Hi Hcs _ _ _ H) as Hl; eexists; (split; [exact H|]); rewrite !(g_aget cs dir fi h p Hi Hcs) by done; auto.
  Qed.
  Lemma lcb_lays l x y : lcb p l x y = true -> l ∈ lays p.
  Proof. rewrite lcb_true. intros [H|H]; by apply (g_wt_lays cs dir fi h p Hi Hcs) in H. Qed.
  Lemma ncnt_list x y : ncnt p x y = Z.of_nat (length (bfilter (fun l => lcb p l x y) (lays p))) /\
    lists_exactly (bfilter (fun l => lcb p l x y) (lays p)) (fun l => link_on p l x y).
  Proof.
    split; [by rewrite length_bfilter|]. split; [apply NoDup_bfilter, (g_NoDup_lays cs dir fi h p Hi Hcs)|].
    intros l. rewrite elem_of_bfilter, link_on_lcb. split; [tauto|]. intros H. split; [done|by eapply lcb_lays].
  Qed.
  Lemma linked_on_cnt t x y : linked_on p t x y <-> 0 < ncnt p x y /\ t <= ncnt p x y.
  Proof.
    destruct (ncnt_list x y) as [-> HE]. set (B := bfilter _ _) in *. split.
    - intros (Ly & HL & Hne & Ht). rewrite (Permutation_length (NoDup_Permutation Ly B ltac:(apply HL) ltac:(apply HE) ltac:(intros l; destruct HL as [_ HL]; destruct HE as [_ HE]; by rewrite HL, HE))) in Ht.
      split; [|done]. destruct Ly as [|l Ly]; [done|]. assert (l ∈ B) as Hl by (apply HE, HL; left). destruct B; [by apply elem_of_nil in Hl|simpl; lia].
    - intros [H1 H2]. exists B. split; [done|]. split; [|done]. by intros ->.
  Qed.
  Lemma count_ok x : exists d, count_neighbours p x (lays p) = Ok d /\ dpos d /\ forall y, dcnt d y = ncnt p x y.
  Proof.
    unfold count_neighbours, ncnt. assert (forall ls d0, (forall l, l ∈ ls -> l ∈ lays p) -> dpos d0 ->
      exists d, rfold (fun d l => let? m := intra p (LBare l) in Ok (foldl (fun d y => dset d y (default 0 (dget d y) + 1)) d (nbs0 m x))) d0 ls = Ok d /\
        dpos d /\ forall y, dcnt d y = dcnt d0 y + zsumf (fun l => b2z (lcb p l x y)) ls) as Hg.
    { induction ls as [|l ls IH]; intros d0 Hls Hd0; cbn [rfold].
      - exists d0. split; [done|]. split; [done|]. intros y. rewrite zsumf_nil. lia.
      - destruct (g_intra cs dir fi h p Hi Hcs l) as (m & -> & Hm); [apply Hls; left|]. cbn [rbind].
        change (fun d y => dset d y (default 0 (dget d y) + 1)) with bump.
        destruct (bumps_ok (nbs0 m x) d0 Hd0 (g_nbs0_NoDup cs dir fi h p Hi l m x Hm)) as [H1 H2].
        destruct (IH (foldl bump d0 (nbs0 m x))) as (d & E & Hd & Hc); [intros l' Hl'; apply Hls; by right|done|].
        exists d. split; [exact E|]. split; [done|]. intros y. rewrite Hc, H2, zsumf_cons.
        assert (bool_decide (y ∈ nbs0 m x) = lcb p l x y) as ->; [|lia]. apply eq_true_iff_eq. by rewrite bool_decide_eq_true, (lcb_nbs l m). }
    destruct (Hg (lays p) []) as (d & E & Hd & Hc); [done|split; [apply NoDup_nil_2|done]|]. exists d. split; [exact E|]. split; [done|]. intros y. by rewrite Hc.
  Qed.
  Lemma th_ok x t : exists d, count_neighbours p x (lays p) = Ok d /\
    lists_exactly ((filter (fun kv : name * Z => t <= kv.2) d).*1) (fun y => 0 < ncnt p x y /\ t <= ncnt p x y).
  Proof.
    destruct (count_ok x) as (d & E & Hd & Hc). exists d. split; [done|]. split.
    - destruct Hd as [Hk _]. unfold dkeys in Hk. clear -Hk. induction d as [|[k v] d IH]; [apply NoDup_nil_2|]. simpl in Hk. apply NoDup_cons in Hk as [Hk1 Hk].
      rewrite filter_cons. destruct (decide _); [|by apply IH]. rewrite fmap_cons. cbn [fst]. apply NoDup_cons. split; [|by apply IH].
      intros ([k' v'] & -> & [_ Hin]%elem_of_list_filter)%elem_of_list_fmap. apply Hk1. apply elem_of_list_fmap. by exists (k', v').
    - intros y. rewrite elem_of_list_fmap, <- Hc. split.
      + intros ([k v] & -> & [Ht Hin]%elem_of_list_filter). cbn [fst snd] in *. apply (dget_elem_of d k v (proj1 Hd)) in Hin. split; [apply dget_cnt; [done|]; by eexists|]. unfold dcnt. by rewrite Hin.
      + intros [H1 H2]. apply dget_cnt in H1 as [v Hv]; [|done]. exists (y, v). split; [done|]. apply elem_of_list_filter. split; [|by apply dget_elem_of; [apply Hd|]].
        unfold dcnt in H2. by rewrite Hv in H2.
  Qed.
  Definition brodka_sum (N : list name) : Z := zsumf (fun l => zsumf (fun v => zsumf (fun w => rdw p l w v + rdw p l v w) N) N) (lays p).
  Lemma brodka_eq x th : let t := default (Z.of_nat (length (lays p))) th in exists N,
    lists_exactly N (fun y => 0 < ncnt p x y /\ t <= ncnt p x y) /\
    lcc_brodka p x None th = (if decide (length N = 0%nat) then Ok (Some 0%Q)
      else Ok (Some (inject_Z (brodka_sum N) / inject_Z (2 * Z.of_nat (length N) * Z.of_nat (length (lays p))))%Q)).
  Proof.
    intros t. destruct (th_ok x t) as (d & E & HN). exists ((filter (fun kv : name * Z => t <= kv.2) d).*1). split; [done|]. set (N := (filter _ d).*1) in *.
    unfold lcc_brodka. rewrite decide_True by apply (g_asp cs dir fi h p Hi Hcs). rewrite (g_layers1_eq cs dir fi h p Hi Hcs). cbn [rbind th_neighbours]. fold t. rewrite E. cbn [rbind]. fold N.
    destruct (decide (length N = 0%nat)) as [|Hne]; [done|].
    rewrite (rsum_ok _ (fun l => zsumf (fun v => zsumf (fun w => rdw p l w v + rdw p l v w) N) N)).
    2:{ intros l _. apply rsum_ok. intros v _. apply rsum_ok. intros w _. rewrite !(g_read3 cs dir fi h p Hi Hcs). done. }
    cbn [rbind]. assert (0 < length (lays p))%nat by (eapply lays_pos; [exact HN|]; by intros HN0; rewrite HN0 in Hne).
    rewrite decide_False by nia. rewrite zdiv_pos by nia. done.
  Qed.
  Lemma nu_ok x : exists nu, criado_nu p x None (lays p) = Ok nu /\ lists_exactly nu (fun y => exists l, lcb p l x y = true).
  Proof.
    unfold criado_nu. assert (forall ls s0, (forall l, l ∈ ls -> l ∈ lays p) -> NoDup s0 ->
      exists s, rfold (fun s l => let? m := intra p (LBare l) in Ok (foldl (fun s y => sadd y s) s (nbs0 m x))) s0 ls = Ok s /\
        NoDup s /\ forall y, y ∈ s <-> y ∈ s0 \/ exists l, l ∈ ls /\ lcb p l x y = true) as Hg.
    { induction ls as [|l ls IH]; intros s0 Hls Hs0; cbn [rfold].
      - exists s0. split; [done|]. split; [done|]. intros y. split; [by left|]. intros [?|(l & ?%elem_of_nil & _)]; done.
      - destruct (g_intra cs dir fi h p Hi Hcs l) as (m & -> & Hm); [apply Hls; left|]. cbn [rbind].
        assert (forall L s, NoDup s -> NoDup (foldl (fun s y => sadd y s) s L) /\ forall y : name, y ∈ foldl (fun s y => sadd y s) s L <-> y ∈ s \/ y ∈ L) as Hf.
        { clear. induction L as [|z L IH]; intros s Hs; cbn [foldl]; [split; [done|]; intros y; split; [by left|]; intros [?|?%elem_of_nil]; done|].
          destruct (IH (sadd z s)) as [H1 H2]; [by apply NoDup_sadd|]. split; [done|]. intros y. rewrite H2, elem_of_sadd, elem_of_cons. tauto. }
        destruct (Hf (nbs0 m x) s0 Hs0) as [H1 H2]. destruct (IH (foldl (fun s y => sadd y s) s0 (nbs0 m x))) as (s & E & Hs & Hc); [intros l' Hl'; apply Hls; by right|done|].
        exists s. split; [exact E|]. split; [done|]. intros y. rewrite Hc, H2, (lcb_nbs l m) by done. split.
        + intros [[?|?]|(l' & ? & ?)]; [by left|right; exists l; split; [left|done]|right; exists l'; split; [by right|done]].
        + intros [?|(l' & [->|?]%elem_of_cons & ?)]; eauto. }
    destruct (Hg (lays p) []) as (s & E & Hs & Hc); [done|apply NoDup_nil_2|]. exists s. split; [exact E|]. split; [done|]. intros y. rewrite Hc. split.
    - intros [?%elem_of_nil|(l & _ & ?)]; [done|eauto].
    - intros (l & Hl). right. exists l. split; [|done]. by eapply lcb_lays.
  Qed.
  Definition exs (y l : name) : bool := exb p y l.
  Lemma exs_iff y l : exs y l = true <-> mexists p [y; l].
  Proof.
    unfold exs, exb. destruct (miter_node_layers_ok p (pi_wf _ _ _ _ _ _ Hi)) as (L & HL & _). rewrite HL, Base.lin_true. unfold mexists. rewrite HL.
    split; [eauto|]. by intros (? & [= <-] & ?).
  Qed.
  Definition cD (nu : list name) : list (name * (name * name)) :=
    bfilter (fun t => negb (bool_decide (t.2.2 = t.2.1)) && (exs (t.2.1) (t.1) && exs (t.2.2) (t.1))) (prodl (lays p) (prodl nu nu)).
  Definition cS (nu : list name) : list (name * (name * name)) :=
    bfilter (fun t => lcb p (t.1) (t.2.1) (t.2.2) && (exs (t.2.1) (t.1) && exs (t.2.2) (t.1))) (prodl (lays p) (prodl nu nu)).
  Lemma criado_eq x an nu : NoDup nu -> criado_nu p x an (lays p) = Ok nu ->
    lcc_criado p x an = (if decide (Z.of_nat (length (cD nu)) = 0) then Ok None else
      Ok (Some (inject_Z (Z.of_nat (length (cS nu))) / inject_Z (Z.of_nat (length (cD nu))))%Q)).
  Proof.
    intros Hnd Hnu. unfold lcc_criado. rewrite (g_layers1_eq cs dir fi h p Hi Hcs). cbn [rbind]. rewrite Hnu. cbn [rbind].
    set (na l := filter (fun y => exs y l = true) nu).
    rewrite (rmapM_Ok_iff _ (fun l => (zsumf (fun y => zsumf (fun z => b2z (lcb p l y z)) (na l)) (na l), Z.of_nat (length (na l)) * (Z.of_nat (length (na l)) - 1)))).
    2:{ intros l Hl. unfold criado_layer. destruct (g_intra cs dir fi h p Hi Hcs l Hl) as (m & -> & Hm). cbn [rbind].
        assert (filter (fun y => y ∈ net_nodes m) nu = na l) as ->.
        { apply list_filter_iff. intros y. by rewrite exs_iff, (g_view_nodes cs dir fi h p Hi Hcs l m). }
        do 2 f_equal. apply zsumf_ext. intros y _. rewrite <- length_bfilter. f_equal. apply Permutation_length, NoDup_Permutation.
        - apply NoDup_filter, (g_nbs0_NoDup cs dir fi h p Hi l m y Hm).
        - apply NoDup_bfilter, NoDup_filter, Hnd.
        - intros z. rewrite elem_of_list_filter, elem_of_bfilter, (lcb_nbs l m) by done. tauto. }
    cbn [rbind]. rewrite <- !list_fmap_compose.
    assert (zsum ((snd ∘ fun l => (zsumf (fun y => zsumf (fun z => b2z (lcb p l y z)) (na l)) (na l), Z.of_nat (length (na l)) * (Z.of_nat (length (na l)) - 1))) <$> lays p)
      = Z.of_nat (length (cD nu))) as ->.
    { change (zsum (?f <$> ?L)) with (zsumf f L). unfold cD. rewrite length_bfilter, zsumf_prodl. apply zsumf_ext. intros l _. cbn [compose fst snd].
      rewrite zsumf_prodl. cbn [fst snd].
      rewrite (zsumf_ext _ (fun y => b2z (bool_decide (exs y l = true)) * zsumf (fun z => b2z (bool_decide (z <> y))) (na l))).
      - rewrite <- zsumf_filter_b. fold (na l). rewrite (zsumf_ext _ (fun _ => Z.of_nat (length (na l)) - 1)).
        + rewrite zsumf_const. lia.
        + intros y Hy. rewrite <- (length_filter_ne (na l) y) by (done || by apply NoDup_filter). rewrite <- (Z.mul_1_l (Z.of_nat _)), <- zsumf_const, zsumf_filter_b. apply zsumf_ext. intros; lia.
      - intros y _. unfold na. rewrite zsumf_filter_b, <- zsumf_mul_l. apply zsumf_ext. intros z _. rewrite !b2z_andb, <- bool_decide_not.
        rewrite !bool_decide_eq_true_bool. lia. }
    assert (zsum ((fst ∘ fun l => (zsumf (fun y => zsumf (fun z => b2z (lcb p l y z)) (na l)) (na l), Z.of_nat (length (na l)) * (Z.of_nat (length (na l)) - 1))) <$> lays p)
      = Z.of_nat (length (cS nu))) as ->.
    { change (zsum (?f <$> ?L)) with (zsumf f L). unfold cS. rewrite length_bfilter, zsumf_prodl. apply zsumf_ext. intros l _. cbn [compose fst snd].
      rewrite zsumf_prodl. cbn [fst snd]. unfold na. rewrite zsumf_filter_b. apply zsumf_ext. intros y _. rewrite zsumf_filter_b, <- zsumf_mul_l. apply zsumf_ext. intros z _.
      rewrite !b2z_andb, !bool_decide_eq_true_bool. lia. }
    destruct (decide _) as [|Hne]; [done|]. rewrite zdiv_pos by lia. done.
  Qed.
End Nbr.

(** ** C62 *)
Lemma default_len (A B : list name) (th : option Z) : length A = length B -> default (Z.of_nat (length A)) th = default (Z.of_nat (length B)) th.
Proof. by intros ->. Qed.
(** [N] lists the neighbours of the node on at least [t] layers; [a l i j] is what
    [net[i,j,l]] returns. *)
Theorem C62_brodka cs dir fi hs p x th Ls a : mhist cs dir 0 fi hs p -> length cs = 1%nat -> lists_exactly Ls (mhas p 1) ->
  (forall l i j, l ∈ Ls -> mreads p [i; l] [j; l] (a l i j)) ->
  exists N q, lists_exactly N (linked_on p (default (Z.of_nat (length Ls)) th) x) /\ lcc_brodka p x None th = Ok (Some q) /\
    (N = [] -> (q == 0)%Q) /\
    (N <> [] -> (q == inject_Z (weight_sum a N Ls) / inject_Z (2 * Z.of_nat (length N) * Z.of_nat (length Ls)))%Q).
Proof.
  intros Hh Hcs HL Ha. pose proof (mhist_inv _ _ _ _ _ _ Hh) as Hi. pose proof (layers_len _ _ _ _ _ _ Hi Hcs HL) as Hll.
  destruct (brodka_eq cs dir fi hs p Hi Hcs x th) as (N & HN & E). rewrite (default_len _ _ th Hll) in HN.
  exists N. rewrite E. assert (lists_exactly N (linked_on p (default (Z.of_nat (length Ls)) th) x)) as HN'.
  { destruct HN as [H1 H2]. split; [done|]. intros y. by rewrite H2, (linked_on_cnt cs dir fi hs p Hi Hcs). }
  destruct N as [|y N'].
  - exists 0%Q. split; [done|]. split; [by rewrite decide_True by done|]. done.
  - set (N := y :: N') in *. rewrite decide_False by done. eexists. split; [done|]. split; [reflexivity|]. split; [done|]. intros _. rewrite Hll.
    assert (brodka_sum p N = weight_sum a N Ls) as ->; [|done].
    unfold brodka_sum, weight_sum. rewrite (zsumf_perm _ (lays p) Ls).
    + apply zsumf_ext. intros l Hl. apply zsumf_ext. intros v _. apply zsumf_ext. intros w _.
      rewrite (proj1 (g_mreads cs dir fi hs p Hi Hcs w v l _) (Ha l w v Hl)), (proj1 (g_mreads cs dir fi hs p Hi Hcs v w l _) (Ha l v w Hl)). done.
    + apply NoDup_Permutation; [apply (g_NoDup_lays cs dir fi hs p Hi Hcs)|apply HL|]. intros l. destruct HL as [_ HL]. by rewrite (g_lays_mhas cs dir fi hs p Hi Hcs), HL.
Qed.
(** On an undirected network with weights 0 and 1 passing the aggregated network makes no
    difference. *)
Theorem C62_aggregated w fi hs p x th : mhist [CCat w] false 0 fi hs p -> w <> 0 -> no_loops p -> weights p (fun v => v = 0 \/ v = 1) ->
  exists an q r, maggregate p [1%nat] false = Ok an /\ lcc_brodka p x None th = Ok (Some q) /\ lcc_brodka p x (Some an) th = Ok (Some r) /\ (q == r)%Q.
Proof.
  intros Hh Hw Hs H01. destruct (agg_wt w fi hs p Hh Hw Hs) as (an & Ean & Hg & _ & Ha & Hn & Hd & Hno & HW). exists an.
  pose proof (mhist_inv _ _ _ _ _ _ Hh) as Hi. assert (forall l i j, wt p l i j = 0 \/ wt p l i j = 1) as H01'.
  { intros l i j. apply (weights_wt p (fun v => v = 0 \/ v = 1)); auto. }
  destruct (brodka_eq [CCat w] false fi hs p Hi eq_refl x th) as (N & HN & E). set (t := default _ th) in *.
  assert (forall i j, w0 an i j = ncnt p i j) as Hc.
  { intros i j. rewrite HW. unfold ncnt. apply zsumf_ext. intros l _. unfold lcb. rewrite (g_wt_sym [CCat w] false fi hs p Hi l j i eq_refl).
    destruct (H01' l i j) as [->| ->]; [by rewrite bool_decide_true|]. rewrite bool_decide_false by lia. done. }
  assert (forall y, y ∈ nbs0 an x <-> 0 < ncnt p x y) as Hnb.
  { intros y. rewrite <- Hc. assert (0 <= w0 an x y) as H0.
    { rewrite HW. apply zsumf_nonneg. intros l _. destruct (H01' l x y); lia. }
    destruct (iter_total_exact an [x] None Hg I) as [_ HE]. unfold nbs0. rewrite elem_of_list_fmap. split.
    - intros (c & -> & Hc'). apply HE in Hc' as [Hc' _]. assert (length c = 1%nat) as Hl.
      { destruct Hc' as [(_ & Hq & _)|(Hq & _)]; by rewrite Ha in Hq. }
      destruct c as [|c []]; try done. change (node_of [c]) with c in *. assert (linked an [x] [c]) as Hk.
      { destruct Hc' as [?|Hk]; [done|]. rewrite !linked_lnk in * by done. by rewrite (wfL_sym an (proj2 Hg) Hd). }
      apply (g_w0_linked an) in Hk; [lia|done..].
    - intros Hpos. exists [y]. split; [done|]. apply HE. split; [|done]. left. apply (g_w0_linked an); [done..|lia]. }
  assert (NoDup (nbs0 an x)) as HNd.
  { destruct (iter_total_exact an [x] None Hg I) as [HNn HE]. unfold nbs0. apply NoDup_fmap_2_strong; [|done]. intros a b Ha' Hb' He.
    assert (forall c, c ∈ iter_total an [x] None -> length c = 1%nat) as Hl.
    { intros c Hcc. apply HE in Hcc as [[(_ & Hcc & _)|(Hcc & _)] _]; by rewrite Ha in Hcc. }
    pose proof (Hl a Ha') as La. pose proof (Hl b Hb') as Lb.
    destruct a as [|a []]; try done. destruct b as [|b []]; try done. unfold node_of in He. simpl in He. congruence. }
  assert (Permutation N (filter (fun y => t <= w0 an x y) (nbs0 an x))) as HP.
  { apply NoDup_Permutation; [apply HN|by apply NoDup_filter|]. intros y. destruct HN as [_ HN]. rewrite elem_of_list_filter, Hnb, HN, Hc. tauto. }
  assert (forall l i j, rdw p l i j = wt p l i j) as Hrd.
  { intros l i j. unfold rdw. destruct (decide (i = j)) as [->|]; [|done]. by rewrite (g_wt_loops p l j Hs). }
  assert (lcc_brodka p x (Some an) th = (if decide (length N = 0%nat) then Ok (Some 0%Q)
      else Ok (Some (inject_Z (brodka_sum p N) / inject_Z (2 * Z.of_nat (length N) * Z.of_nat (length (lays p))))%Q))) as E2.
  { unfold lcc_brodka. rewrite decide_True by apply (g_asp [CCat w] false fi hs p Hi eq_refl). rewrite (g_layers1_eq [CCat w] false fi hs p Hi eq_refl). cbn [rbind th_neighbours]. fold t.
    rewrite (g_dir [CCat w] false fi hs p Hi). cbn [rbind]. rewrite <- (Permutation_length HP). destruct (decide (length N = 0%nat)) as [|Hne]; [done|]. cbn [rbind].
    assert (0 < length (lays p))%nat by (eapply lays_pos; [exact HN|]; intros HN0; by rewrite HN0 in Hne).
    rewrite decide_False by nia. rewrite zdiv_pos by nia. cbn [rbind]. 
    assert (brodka_sum p N = zsumf (fun v => zsumf (fun u => w0 an u v + w0 an v u) N) N) as ->.
    { unfold brodka_sum. rewrite (zsumf_swap (fun l v => zsumf (fun u => rdw p l u v + rdw p l v u) N) (lays p) N). apply zsumf_ext. intros v _.
      rewrite (zsumf_swap (fun l u => rdw p l u v + rdw p l v u) (lays p) N). apply zsumf_ext. intros u _.
      rewrite !HW, <- zsumf_add. apply zsumf_ext. intros l _. by rewrite !Hrd. }
    rewrite (zsumf_perm _ _ _ HP). do 4 f_equal. apply zsumf_ext. intros v _. by rewrite (zsumf_perm _ _ _ HP). }
  rewrite E, E2. destruct (decide _); do 2 eexists; split_and!; done.
Qed.
(** Unit weights on all links of all layers: the value is n-2. *)
Theorem C62_complete_networks cs dir fi hs p x th Ls Ns : mhist cs dir 0 fi hs p -> length cs = 1%nat -> lists_exactly Ls (mhas p 1) -> lists_exactly Ns (mhas p 0) ->
  no_loops p -> (forall l v w, mhas p 1 l -> mhas p 0 v -> mhas p 0 w -> v <> w -> mreads p [v; l] [w; l] 1) ->
  mhas p 0 x -> (2 <= length Ns)%nat -> (1 <= length Ls)%nat -> (forall t, th = Some t -> t <= Z.of_nat (length Ls)) ->
  exists q, lcc_brodka p x None th = Ok (Some q) /\ (q == inject_Z (Z.of_nat (length Ns) - 2))%Q.
Proof.
  intros Hh Hcs HL HN Hs Hfull Hx Hn Hl Hth. pose proof (mhist_inv _ _ _ _ _ _ Hh) as Hi. pose proof (layers_len _ _ _ _ _ _ Hi Hcs HL) as Hll.
  pose proof (nodes_len _ _ _ _ _ _ Hi HN) as Hnn. apply (g_nodes_mhas cs dir fi hs p Hi) in Hx.
  assert (forall l v w, l ∈ lays p -> v ∈ mnodes p -> w ∈ mnodes p -> rdw p l v w = if decide (v = w) then 0 else 1) as Hr.
  { intros l v w Hl' Hv Hw. destruct (decide (v = w)) as [->|Hne]; [unfold rdw; by rewrite decide_True|].
    symmetry. apply (g_mreads cs dir fi hs p Hi Hcs). apply Hfull; [by apply (g_lays_mhas cs dir fi hs p Hi Hcs)|by apply (g_nodes_mhas cs dir fi hs p Hi)..|done]. }
  destruct (brodka_eq cs dir fi hs p Hi Hcs x th) as (N & HN' & E). set (t := default _ th) in *.
  assert (t <= Z.of_nat (length (lays p))) as Ht. { unfold t. destruct th as [t'|]; simpl; [|lia]. rewrite Hll. by apply Hth. }
  assert (Permutation N (others p x)) as HP.
  { apply NoDup_Permutation; [apply HN'|apply NoDup_filter, (g_NoDup_mnodes cs dir fi hs p Hi)|]. intros y. destruct HN' as [_ HN']. rewrite HN', (elem_others p x). unfold ncnt. split.
    - intros [Hpos _]. destruct (decide (y = x)) as [->|Hne].
      + rewrite zsumf_zero in Hpos; [lia|]. intros l _. unfold lcb. by rewrite (g_wt_loops p l x Hs), bool_decide_true.
      + split; [done|]. destruct (decide (y ∈ mnodes p)) as [|Hny]; [done|]. rewrite zsumf_zero in Hpos; [lia|]. intros l _. unfold lcb. rewrite bool_decide_true; [done|].
        assert (forall u v, u = y \/ v = y -> wt p l u v = 0) as H0; [|auto]. intros u v Huv. destruct (decide (wt p l u v = 0)) as [|Hz]; [done|]. exfalso. apply Hny.
        apply (g_wt_ex cs dir fi hs p Hi Hcs) in Hz as [Hz1 Hz2]. apply (g_ex_in cs dir fi hs p Hi Hcs) in Hz1 as [? _], Hz2 as [? _]. by destruct Huv as [-> | ->].
    - intros [Hne Hy]. assert (zsumf (fun l => b2z (lcb p l x y)) (lays p) = Z.of_nat (length (lays p))) as ->; [|lia].
      rewrite <- (Z.mul_1_l (Z.of_nat _)), <- zsumf_const. apply zsumf_ext. intros l Hl'. specialize (Hr l x y Hl' Hx Hy). rewrite decide_False in Hr by congruence.
      assert (lcb p l x y = true) as ->; [|done]. apply lcb_true. left. unfold rdw in Hr. rewrite decide_False in Hr by congruence. lia. }
  pose proof (no_eq cs dir fi hs p Hi x Hx) as Hno. rewrite <- (Permutation_length HP) in Hno. rewrite Hnn in Hno.
  rewrite E, decide_False by lia. eexists. split; [reflexivity|].
  assert (brodka_sum p N = 2 * Z.of_nat (length (lays p)) * (Z.of_nat (length N) * (Z.of_nat (length N) - 1))) as ->.
  { unfold brodka_sum. rewrite (zsumf_ext _ (fun _ => 2 * (Z.of_nat (length N) * (Z.of_nat (length N) - 1)))), zsumf_const; [lia|]. intros l Hl'.
    rewrite (zsumf_ext _ (fun _ => 2 * (Z.of_nat (length N) - 1))), zsumf_const; [lia|]. intros v Hv.
    rewrite <- (length_filter_ne N v) by (done || apply HN'). rewrite <- zsumf_const, zsumf_filter_b. apply zsumf_ext. intros u Hu.
    rewrite HP in Hv, Hu. apply elem_others in Hv as [_ Hv], Hu as [_ Hu]. rewrite !Hr by done.
    destruct (decide (u = v)) as [->|Hne]; [rewrite decide_True, bool_decide_false by (done || auto); done|]. rewrite decide_False, bool_decide_true by (done || congruence). done. }
  rewrite Hno, Hll. set (k := Z.of_nat (length Ns)) in *. set (b := Z.of_nat (length Ls)) in *.
  transitivity (inject_Z (k - 2) / inject_Z 1)%Q; [|unfold Qdiv, Qinv, Qmult, Qeq; simpl; lia]. apply Qdiv_eq; [repeat apply Z.mul_pos_pos; lia|lia|]. ring.
Qed.
(** Multiplying all weights by a constant multiplies the value. *)
Theorem C62_scaling cs cs' dir fi fi' hs hs' p p' x th Ls a c : mhist cs dir 0 fi hs p -> mhist cs' dir 0 fi' hs' p' -> length cs = 1%nat -> length cs' = 1%nat ->
  lists_exactly Ls (mhas p 1) -> lists_exactly Ls (mhas p' 1) -> no_loops p -> no_loops p' -> c <> 0 ->
  (forall l i j, l ∈ Ls -> mreads p [i; l] [j; l] (a l i j) /\ mreads p' [i; l] [j; l] (c * a l i j)) ->
  exists q q', lcc_brodka p x None th = Ok (Some q) /\ lcc_brodka p' x None th = Ok (Some q') /\ (q' == inject_Z c * q)%Q.
Proof.
  intros Hh Hh' Hcs Hcs' HL HL' Hs Hs' Hc Ha. pose proof (mhist_inv _ _ _ _ _ _ Hh) as Hi. pose proof (mhist_inv _ _ _ _ _ _ Hh') as Hi'.
  pose proof (layers_len _ _ _ _ _ _ Hi Hcs HL) as Hll. pose proof (layers_len _ _ _ _ _ _ Hi' Hcs' HL') as Hll'.
  destruct (brodka_eq cs dir fi hs p Hi Hcs x th) as (N & HN & E). destruct (brodka_eq cs' dir fi' hs' p' Hi' Hcs' x th) as (N' & HN' & E').
  rewrite (default_len _ _ th Hll) in HN. rewrite (default_len _ _ th Hll') in HN'.
  assert (Permutation (lays p) (lays p')) as HPl.
  { apply NoDup_Permutation; [apply (g_NoDup_lays cs dir fi hs p Hi Hcs)|apply (g_NoDup_lays cs' dir fi' hs' p' Hi' Hcs')|]. intros l.
    rewrite (g_lays_mhas cs dir fi hs p Hi Hcs), (g_lays_mhas cs' dir fi' hs' p' Hi' Hcs'). destruct HL as [_ HL], HL' as [_ HL']. by rewrite <- HL, <- HL'. }
  assert (forall l i j, l ∈ lays p -> rdw p' l i j = c * rdw p l i j) as Hr.
  { intros l i j Hl. apply (g_lays_mhas cs dir fi hs p Hi Hcs) in Hl. destruct HL as [_ HL]. apply HL in Hl. destruct (Ha l i j Hl) as [H1 H2].
    apply (g_mreads cs dir fi hs p Hi Hcs) in H1. apply (g_mreads cs' dir fi' hs' p' Hi' Hcs') in H2. congruence. }
  assert (forall l i j, rdw p l i j = wt p l i j /\ rdw p' l i j = wt p' l i j) as Hrw.
  { intros l i j. unfold rdw. destruct (decide (i = j)) as [->|]; [|done]. by rewrite (g_wt_loops p l j Hs), (g_wt_loops p' l j Hs'). }
  assert (forall y, ncnt p x y = ncnt p' x y) as Hcn.
  { intros y. unfold ncnt. rewrite <- (zsumf_perm _ _ _ HPl). apply zsumf_ext. intros l Hl. f_equal. apply eq_true_iff_eq. rewrite !lcb_true.
    destruct (Hrw l x y) as [<- <-], (Hrw l y x) as [<- <-]. rewrite !Hr by done. nia. }
  assert (Permutation N N') as HP.
  { apply NoDup_Permutation; [apply HN|apply HN'|]. intros y. destruct HN as [_ HN], HN' as [_ HN']. by rewrite HN, HN', Hcn. }
  rewrite E, E', <- (Permutation_length HP), Hll, Hll'. destruct (decide _) as [|Hne]; [do 2 eexists; split; [done|]; split; [done|]; by rewrite Qmult_0_r|].
  do 2 eexists. split; [reflexivity|]. split; [reflexivity|].
  assert (brodka_sum p' N' = c * brodka_sum p N) as ->.
  { unfold brodka_sum. rewrite <- (zsumf_perm _ _ _ HPl), <- zsumf_mul_l. apply zsumf_ext. intros l Hl. rewrite <- (zsumf_perm _ _ _ HP), <- zsumf_mul_l. apply zsumf_ext. intros v _.
    rewrite <- (zsumf_perm _ _ _ HP), <- zsumf_mul_l. apply zsumf_ext. intros u _. rewrite !Hr by done. lia. }
  rewrite inject_Z_mult. unfold Qdiv. by rewrite Qmult_assoc.
Qed.
(** With other weights the threshold is compared with a sum of weights if the aggregated
    network is passed, and the values differ; they do not scale with the weights. *)
Definition ex_br (c : Z) : list call * mpx :=
  mcalls (new_mpx [CCat 1] false 0 true) ((fun it => MSet it c) <$> [[n1; n2; sa]; [n1; n3; sa]; [n2; n3; sa]; [n1; n2; sb]]).
Lemma ex_br_loops c : c = 1 \/ c = 2 -> no_loops (ex_br c).2.
Proof.
  intros Hc. assert (mhist [CCat 1] false 0 true (ex_br c).1 (ex_br c).2) as Hh by apply mcalls_hist. eapply no_loops_by; [exact Hh|]. by destruct Hc as [-> | ->]; vm_compute.
Qed.
Theorem C62_weighted_aggregate_refuted : exists h p an q r, mhist [CCat 1] false 0 true h p /\ no_loops p /\ maggregate p [1%nat] false = Ok an /\
  lcc_brodka p n1 None (Some 2) = Ok (Some q) /\ lcc_brodka p n1 (Some an) (Some 2) = Ok (Some r) /\ (q == 0)%Q /\ (r == 1)%Q.
Proof.
  exists (ex_br 2).1, (ex_br 2).2. do 3 eexists. split; [apply mcalls_hist|]. split; [apply ex_br_loops; auto|]. split; [vm_compute; reflexivity|].
  split; [vm_compute; reflexivity|]. split; [vm_compute; reflexivity|]. split; by vm_compute.
Qed.
Lemma scale_by c w fi h p h' p' : mhist [CCat w] false 0 fi h p -> mhist [CCat w] false 0 fi h' p' -> mnodes p = mnodes p' -> lays p = lays p' ->
  forallb (fun l => forallb (fun i => forallb (fun j => bool_decide (c * rdw p l i j = rdw p' l i j)) (mnodes p)) (mnodes p)) (lays p) = true ->
  forall l i j v, mreads p [i; l] [j; l] v -> mreads p' [i; l] [j; l] (c * v).
Proof.
  intros H1 H2 Hn Hl HF l i j v Hv. apply (g_mreads _ _ _ _ _ (mhist_inv _ _ _ _ _ _ H1) eq_refl) in Hv. apply (g_mreads _ _ _ _ _ (mhist_inv _ _ _ _ _ _ H2) eq_refl). subst v.
  destruct (decide (l ∈ lays p /\ i ∈ mnodes p /\ j ∈ mnodes p)) as [(Hl' & Hx & Hy)|Hno].
  - rewrite forallb_forall in HF. apply elem_of_list_In in Hl', Hx, Hy. specialize (HF l Hl'). rewrite forallb_forall in HF. specialize (HF i Hx). rewrite forallb_forall in HF. specialize (HF j Hy).
    by apply bool_decide_eq_true in HF.
  - assert (rdw p l i j = 0) as ->.
    { destruct (decide (rdw p l i j = 0)) as [|Hz]; [done|]. exfalso. apply Hno. apply lkb_rdw, (lkb_in _ _ _ _ _ (mhist_inv _ _ _ _ _ _ H1) eq_refl) in Hz as (_ & ? & ? & ?). done. }
    destruct (decide (rdw p' l i j = 0)) as [Hz|Hz]; [lia|]. exfalso. apply Hno. rewrite Hn, Hl. apply lkb_rdw, (lkb_in _ _ _ _ _ (mhist_inv _ _ _ _ _ _ H2) eq_refl) in Hz as (_ & ? & ? & ?). done.
Qed.
Theorem C62_aggregate_scaling_refuted : exists h p h' p' an an' q q', mhist [CCat 1] false 0 true h p /\ mhist [CCat 1] false 0 true h' p' /\
  no_loops p /\ no_loops p' /\ (forall l i j v, mreads p [i; l] [j; l] v -> mreads p' [i; l] [j; l] (2 * v)) /\
  maggregate p [1%nat] false = Ok an /\ maggregate p' [1%nat] false = Ok an' /\
  lcc_brodka p n1 (Some an) (Some 2) = Ok (Some q) /\ lcc_brodka p' n1 (Some an') (Some 2) = Ok (Some q') /\ ~ (q' == 2 * q)%Q.
Proof.
  exists (ex_br 1).1, (ex_br 1).2, (ex_br 2).1, (ex_br 2).2. assert (mhist [CCat 1] false 0 true (ex_br 1).1 (ex_br 1).2) as H1 by apply mcalls_hist.
  assert (mhist [CCat 1] false 0 true (ex_br 2).1 (ex_br 2).2) as H2 by apply mcalls_hist. do 4 eexists. split; [exact H1|]. split; [exact H2|]. do 2 (split; [apply ex_br_loops; auto|]). split.
  - eapply scale_by; [exact H1|exact H2|by vm_compute..].
  - do 4 (split; [vm_compute; reflexivity|]). vm_compute. discriminate.
Qed.
Example C62_example : mhist [CCat 1] false 0 true (ex_br 1).1 (ex_br 1).2 /\ no_loops (ex_br 1).2 /\ weights (ex_br 1).2 (fun v => v = 0 \/ v = 1) /\
  (exists q, lcc_brodka (ex_br 1).2 n1 None (Some 1) = Ok (Some q) /\ (q == 1 # 2)%Q) /\ lcc_brodka (ex_br 1).2 n3 None None = Ok (Some 0%Q).
Proof.
  assert (mhist [CCat 1] false 0 true (ex_br 1).1 (ex_br 1).2) as Hh by apply mcalls_hist. split; [done|]. split; [apply ex_br_loops; auto|].
  split; [|split; [eexists; split; [vm_compute; reflexivity|by vm_compute]|by vm_compute]].
  eapply (weights_by _ _ _ _ (fun v => v = 0 \/ v = 1)); [exact Hh|auto|by vm_compute].
Qed.
Example C62_example_complete : exists q, lcc_brodka ex_bat.2 n1 None None = Ok (Some q) /\ (q == 1)%Q.
Proof. eexists. split; [vm_compute; reflexivity|by vm_compute]. Qed.
Print Assumptions C62_brodka.
Print Assumptions C62_aggregated.
Print Assumptions C62_complete_networks.
Print Assumptions C62_scaling.
Print Assumptions C62_weighted_aggregate_refuted.
Print Assumptions C62_aggregate_scaling_refuted.

(** ** C63 *)
(** [D] lists the pairs of distinct neighbours (on any layer) of [x] that exist on a
    layer, with that layer; [S] those linked on that layer. *)
Definition criado_pair (p : mpx) (x : name) : name * (name * name) -> Prop :=
  fun '(l, (y, z)) => y <> z /\ (exists l', link_on p l' x y) /\ (exists l', link_on p l' x z) /\ mexists p [y; l] /\ mexists p [z; l].
Lemma cD_exact cs dir fi hs p x nu : mhist cs dir 0 fi hs p -> length cs = 1%nat -> NoDup nu -> (forall y, y ∈ nu <-> exists l, link_on p l x y) ->
  lists_exactly (cD p nu) (criado_pair p x).
Proof.
  intros Hh Hcs Hnd Hnu'. pose proof (mhist_inv _ _ _ _ _ _ Hh) as Hi.
  split; [apply NoDup_bfilter, NoDup_prodl; [apply (g_NoDup_lays cs dir fi hs p Hi Hcs)|by apply NoDup_prodl]|].
    intros [l [y z]]. unfold cD, criado_pair. rewrite elem_of_bfilter, !elem_of_prodl. cbn [fst snd].
    rewrite !andb_true_iff, negb_true_iff, bool_decide_eq_false, !(exs_iff cs dir fi hs p Hi), !Hnu'. split.
    - intros ((? & ? & ?) & ? & ? & ?). split_and!; auto.
    - intros (? & ? & ? & He & ?). split_and!; auto. by apply (g_ex_in cs dir fi hs p Hi Hcs) in He as [_ ?].
Qed.
Theorem C63_criado cs dir fi hs p x : mhist cs dir 0 fi hs p -> length cs = 1%nat -> no_loops p -> exists D S,
  lists_exactly D (criado_pair p x) /\
  lists_exactly S (fun t => criado_pair p x t /\ link_on p (t.1) (t.2.1) (t.2.2)) /\
  (D = [] -> lcc_criado p x None = Ok None) /\
  (D <> [] -> exists q, lcc_criado p x None = Ok (Some q) /\ (q == inject_Z (Z.of_nat (length S)) / inject_Z (Z.of_nat (length D)))%Q /\ (0 <= q <= 1)%Q).
Proof.
  intros Hh Hcs Hs. pose proof (mhist_inv _ _ _ _ _ _ Hh) as Hi. destruct (nu_ok cs dir fi hs p Hi Hcs x) as (nu & Enu & Hnd & Hnu).
  pose proof (criado_eq cs dir fi hs p Hi Hcs x None nu Hnd Enu) as E.
  assert (forall y, y ∈ nu <-> exists l, link_on p l x y) as Hnu'.
  { intros y. rewrite Hnu. split; intros (l & Hl); exists l; by apply (link_on_lcb cs dir fi hs p Hi Hcs). }
  pose proof (cD_exact cs dir fi hs p x nu Hh Hcs Hnd Hnu') as HD.
  assert (lists_exactly (cS p nu) (fun t => criado_pair p x t /\ link_on p (t.1) (t.2.1) (t.2.2))) as HS.
  { split; [apply NoDup_bfilter, NoDup_prodl; [apply (g_NoDup_lays cs dir fi hs p Hi Hcs)|by apply NoDup_prodl]|].
    intros [l [y z]]. unfold cS, criado_pair. rewrite elem_of_bfilter, !elem_of_prodl. cbn [fst snd].
    rewrite !andb_true_iff, !(exs_iff cs dir fi hs p Hi), !Hnu', (link_on_lcb cs dir fi hs p Hi Hcs). split.
    - intros ((Hk & ? & ?) & ? & ? & ?). split_and!; auto. intros ->. unfold lcb in Hk. by rewrite (g_wt_loops p l z Hs) in Hk.
    - intros ((? & ? & ? & He & ?) & ?). split_and!; auto. by apply (g_ex_in cs dir fi hs p Hi Hcs) in He as [_ ?]. }
  exists (cD p nu), (cS p nu). split; [done|]. split; [done|]. split.
  - intros H0. rewrite E, H0. by rewrite decide_True by done.
  - intros Hne. assert (0 < Z.of_nat (length (cD p nu))) as Hpos by (destruct (cD p nu); [done|simpl; lia]).
    rewrite E, decide_False by lia. eexists. split; [reflexivity|]. split; [done|]. apply Qdiv_unit; [done|]. split; [lia|].
    assert (length (cS p nu) <= length (cD p nu))%nat; [|lia]. apply submseteq_length, NoDup_submseteq; [apply HS|]. intros t Ht. apply HD. by apply HS in Ht as [? _].
Qed.
(** Passing the aggregated network makes no difference if no weight is negative. *)
Theorem C63_aggregated w fi hs p x : mhist [CCat w] false 0 fi hs p -> w <> 0 -> no_loops p -> weights p (fun v => 0 <= v) ->
  exists an, maggregate p [1%nat] false = Ok an /\ lcc_criado p x (Some an) = lcc_criado p x None.
Proof.
  intros Hh Hw Hs H01. destruct (agg_wt w fi hs p Hh Hw Hs) as (an & Ean & Hg & _ & Ha & Hn & Hd & Hno & HW). exists an. split; [done|].
  pose proof (mhist_inv _ _ _ _ _ _ Hh) as Hi. assert (forall l i j, 0 <= wt p l i j) as Hnn.
  { intros l i j. by apply (weights_wt p (fun v => 0 <= v)). }
  destruct (nu_ok [CCat w] false fi hs p Hi eq_refl x) as (nu & Enu & Hnd & Hnu).
  assert (NoDup (nbs0 an x) /\ forall y, y ∈ nbs0 an x <-> y ∈ nu) as [HNd HNe].
  { destruct (iter_total_exact an [x] None Hg I) as [HNn HE].
    assert (forall c, c ∈ iter_total an [x] None -> length c = 1%nat) as Hl.
    { intros c Hcc. apply HE in Hcc as [[(_ & Hcc & _)|(Hcc & _)] _]; by rewrite Ha in Hcc. }
    split.
    - unfold nbs0. apply NoDup_fmap_2_strong; [|done]. intros a b Ha' Hb' He.
      pose proof (Hl a Ha') as La. pose proof (Hl b Hb') as Lb.
      destruct a as [|a []]; try done. destruct b as [|b []]; try done. unfold node_of in He. simpl in He. congruence.
    - intros y. rewrite Hnu. assert (linked an [x] [y] <-> exists l, lcb p l x y = true) as Hk.
      { rewrite <- (g_w0_linked an) by done. rewrite HW. split.
        - intros Hz. destruct (decide (Exists (fun l => wt p l x y <> 0) (lays p))) as [(l & Hl' & Hz')%Exists_exists|Hno'].
          + exists l. apply lcb_true. by left.
          + exfalso. apply Hz, zsumf_zero. intros l Hl'. destruct (decide (wt p l x y = 0)) as [|Hz']; [done|]. exfalso. apply Hno', Exists_exists. eauto.
        - intros (l & Hl'). pose proof Hl' as Hl2%(lcb_lays [CCat w] false fi hs p Hi eq_refl). apply lcb_true in Hl'.
          rewrite (g_wt_sym [CCat w] false fi hs p Hi l y x eq_refl) in Hl'. pose proof (zsumf_elem_le (fun l => wt p l x y) (lays p) l (fun l => Hnn l x y) Hl2) as Hle. cbv beta in Hle. specialize (Hnn l x y). lia. }
      rewrite <- Hk. unfold nbs0. rewrite elem_of_list_fmap. split.
      + intros (c & -> & Hc'). specialize (Hl c Hc'). apply HE in Hc' as [Hc' _]. destruct c as [|c []]; try done. change (node_of [c]) with c in *.
        destruct Hc' as [?|Hk']; [done|]. rewrite !linked_lnk in * by done. by rewrite (wfL_sym an (proj2 Hg) Hd).
      + intros Hk'. exists [y]. split; [done|]. apply HE. split; [by left|done]. }
  rewrite (criado_eq [CCat w] false fi hs p Hi eq_refl x None nu Hnd Enu), (criado_eq [CCat w] false fi hs p Hi eq_refl x (Some an) (nbs0 an x) HNd eq_refl).
  assert (length (cD p (nbs0 an x)) = length (cD p nu) /\ length (cS p (nbs0 an x)) = length (cS p nu)) as [-> ->]; [|done].
  pose proof (g_NoDup_lays [CCat w] false fi hs p Hi eq_refl) as HNl. split.
  - apply Permutation_length, NoDup_Permutation; [by apply NoDup_bfilter, NoDup_prodl; [|apply NoDup_prodl]..|]. intros [l [y z]]. unfold cD. rewrite !elem_of_bfilter, !elem_of_prodl. cbn [fst snd]. by rewrite !HNe.
  - apply Permutation_length, NoDup_Permutation; [by apply NoDup_bfilter, NoDup_prodl; [|apply NoDup_prodl]..|]. intros [l [y z]]. unfold cS. rewrite !elem_of_bfilter, !elem_of_prodl. cbn [fst snd]. by rewrite !HNe.
Qed.

(** The documentation counts the links of the aggregated network between the neighbours on
    each layer; the code counts the links of the layer. *)
Definition cE (p : mpx) (nu : list name) : list (name * (name * name)) :=
  bfilter (fun t => existsb (fun l => lcb p l (t.2.1) (t.2.2)) (lays p)) (cD p nu).
Lemma cE_exact cs dir fi hs p x nu : mhist cs dir 0 fi hs p -> length cs = 1%nat -> NoDup nu -> (forall y, y ∈ nu <-> exists l, link_on p l x y) ->
  lists_exactly (cE p nu) (fun t => criado_pair p x t /\ exists l, link_on p l (t.2.1) (t.2.2)).
Proof.
  intros Hh Hcs Hnd Hnu'. pose proof (mhist_inv _ _ _ _ _ _ Hh) as Hi. destruct (cD_exact cs dir fi hs p x nu Hh Hcs Hnd Hnu') as [H1 H2].
  split; [by apply NoDup_bfilter|]. intros t. unfold cE. rewrite elem_of_bfilter, H2, existsb_exists. split.
  - intros [(l & _ & Hl) ?]. split; [done|]. exists l. by apply (link_on_lcb cs dir fi hs p Hi Hcs).
  - intros [? (l & Hl)]. split; [|done]. apply (link_on_lcb cs dir fi hs p Hi Hcs) in Hl. exists l. split; [|done]. apply elem_of_list_In. by apply (lcb_lays cs dir fi hs p Hi Hcs) in Hl.
Qed.
Definition ex_cr : list call * mpx := mcalls (new_mpx [CCat 1] false 0 true) ((fun it => MSet it 1) <$> [[n1; n2; sa]; [n1; n3; sa]; [n2; n3; sb]]).
Theorem C63_documented_formula_refuted : exists h p D E q, mhist [CCat 1] false 0 true h p /\ no_loops p /\ lists_exactly D (criado_pair p n1) /\
  lists_exactly E (fun t => criado_pair p n1 t /\ exists l, link_on p l (t.2.1) (t.2.2)) /\
  lcc_criado p n1 None = Ok (Some q) /\ ~ (q == inject_Z (Z.of_nat (length E)) / inject_Z (Z.of_nat (length D)))%Q.
Proof.
  assert (mhist [CCat 1] false 0 true ex_cr.1 ex_cr.2) as Hh by apply mcalls_hist. exists ex_cr.1, ex_cr.2.
  destruct (nu_ok _ _ _ _ _ (mhist_inv _ _ _ _ _ _ Hh) eq_refl n1) as (nu & Enu & Hnd & Hnu).
  assert (forall y, y ∈ nu <-> exists l, link_on ex_cr.2 l n1 y) as Hnu'.
  { intros y. rewrite Hnu. split; intros (l & Hl); exists l; by apply (link_on_lcb _ _ _ _ _ (mhist_inv _ _ _ _ _ _ Hh) eq_refl). }
  exists (cD ex_cr.2 nu), (cE ex_cr.2 nu). eexists. split; [exact Hh|]. split; [by eapply no_loops_by; [exact Hh|vm_compute]|].
  split; [by apply (cD_exact _ _ _ _ _ n1 nu Hh eq_refl)|]. split; [by apply (cE_exact _ _ _ _ _ n1 nu Hh eq_refl)|].
  clear Hnu Hnu' Hh Hnd. vm_compute in Enu. injection Enu as <-. split; [vm_compute; reflexivity|]. vm_compute. discriminate.
Qed.
Example C63_example : mhist [CCat 1] false 0 true ex_cr.1 ex_cr.2 /\ no_loops ex_cr.2 /\ weights ex_cr.2 (fun v => 0 <= v) /\
  (exists q, lcc_criado ex_cr.2 n1 None = Ok (Some q) /\ (q == 1 # 2)%Q) /\ lcc_criado ex_cr.2 (NInt 9) None = Ok None.
Proof.
  assert (mhist [CCat 1] false 0 true ex_cr.1 ex_cr.2) as Hh by apply mcalls_hist. split; [done|]. split; [by eapply no_loops_by; [exact Hh|vm_compute]|].
  split; [eapply weights_by; [exact Hh|done|by vm_compute]|]. split; [|by vm_compute]. eexists. split; [vm_compute; reflexivity|]. by vm_compute.
Qed.
Print Assumptions C63_criado.
Print Assumptions C63_aggregated.
Print Assumptions C63_documented_formula_refuted.
