(** * Lemmas about [er_overlaps_match_aggregated] *)
From Verif Require Import OverlapSpec ModelsFacts MpxHist MpxIter PropsNet PropsMpx PropsTrans PropsModels.

Local Notation nd i := (NInt (Z.of_nat i)).
Definition ov_sets (ls : list name) (q : nat * nat) : list mop := (fun l => MSet [nd (q.1); nd (q.2); l] 1) <$> ls.
Definition ov_ops (ls : list name) (L : list (nat * nat)) : list mop := L ≫= ov_sets ls.
Definition ov_all (phs : list (list name * nat)) (Ss : list (list (nat * nat))) : list mop :=
  zip phs Ss ≫= fun t => ov_ops (t.1.1) (t.2).
(** The draws of the function as one sequence of phases: the layers that are written
    and the number of pairs that are drawn. *)
Definition ov_phases (n : nat) : mpx * list (nat * nat) * list nat -> list (list name * nat) -> res (mpx * list (nat * nat) * list nat) :=
  rfold (fun st ph => ov_draw n (ph.1) (ph.2) (st.1.1) (st.1.2) (st.2)).
Definition ov_el (edges : Z) (el : dict name Z) (cm : list name * Z) : dict name Z :=
  match cm.1 with
  | [] => el
  | [l] => dset el l (default edges (dget el l))
  | ls => foldl (fun d l => dset d l (default edges (dget d l) - cm.2)%Z) el ls
  end.
Definition ov_plan (edges : Z) (ps : list (list name * Z)) : list (list name * nat) :=
  ((fun cm => (cm.1, ov_need cm)) <$> ps) ++ ((fun lm => ([lm.1], Z.to_nat (lm.2))) <$> foldl (ov_el edges) [] ps).

Lemma mbuild_app p os os' : mbuild p (os ++ os') = let? q := mbuild p os in mbuild q os'.
Proof. apply rfold_app. Qed.
Lemma ov_draw_0 n ls p used rnd : ov_draw n ls 0 p used rnd = Ok (p, used, rnd).
Proof. by destruct rnd. Qed.
Lemma ov_combs n edges ps : forall p used el rnd,
  rfold (ov_comb n edges) (p, used, el, rnd) ps =
  let? r := ov_phases n (p, used, rnd) ((fun cm => (cm.1, ov_need cm)) <$> ps) in Ok (r.1.1, r.1.2, foldl (ov_el edges) el ps, r.2).
Proof.
  induction ps as [|[ls m] ps IH]; intros p used el rnd; [done|].
  cbn [rfold fmap list_fmap foldl]. unfold ov_phases. cbn [rfold fst snd].
  destruct ls as [|l [|l' ls]].
  - cbn [ov_comb rbind]. rewrite IH. unfold ov_need. cbn. by rewrite ov_draw_0.
  - cbn [ov_comb rbind]. rewrite IH. unfold ov_need. cbn. by rewrite ov_draw_0.
  - unfold ov_need. rewrite decide_True by (cbn; lia). cbn [fst snd]. unfold ov_comb.
    destruct (ov_draw n _ _ p used rnd) as [[[p1 used1] rnd1]|e]; [|done]. cbn [rbind fst snd]. rewrite IH. done.
Qed.
Lemma er_overlaps_phases cs n edges ps rnd :
  er_overlaps cs n edges ps rnd = let? r := ov_phases n (new_mpx cs false 0 true, [], rnd) (ov_plan edges ps) in Ok (r.1.1).
Proof.
  unfold er_overlaps. rewrite ov_combs. unfold ov_plan. unfold ov_phases at 2. rewrite rfold_app. fold (ov_phases n).
  destruct (ov_phases n _ ((fun cm => (cm.1, ov_need cm)) <$> ps)) as [[[p1 used1] rnd1]|e]; [|done]. cbn [rbind fst snd].
  f_equal. generalize (foldl (ov_el edges) [] ps) as el. intros el. clear. revert p1 used1 rnd1. induction el as [|[l m] el IH]; intros; [done|].
  cbn [rfold fmap list_fmap]. unfold ov_layer at 1. unfold ov_phases. cbn [rfold fst snd].
  destruct (ov_draw n _ _ p1 used1 rnd1) as [[[p2 used2] rnd2]|e]; [|done]. cbn [rbind]. apply IH.
Qed.

(** ** One phase *)
Lemma ov_draw_inv n ls rnd : forall need p used p' used' rnd', ov_draw n ls need p used rnd = Ok (p', used', rnd') ->
  exists L, length L = need /\ used' ≡ₚ L ++ used /\ (NoDup used -> NoDup used') /\
    (forall q, q ∈ L -> q.1 < q.2 /\ q.2 < n) /\ mbuild p (ov_ops ls L) = Ok p'.
Proof.
  induction rnd as [|i rnd IH]; intros [|need] p used p' used' rnd' E.
  - injection E as <- <- <-. exists []. split_and!; [done..| |done]. by intros q ?%elem_of_nil.
  - cbn in E. by destruct (decide _).
  - injection E as <- <- <-. exists []. split_and!; [done..| |done]. by intros q ?%elem_of_nil.
  - cbn [ov_draw] in E. destruct (decide (n * (n - 1) / 2 = 0)); [done|]. destruct (decide (i < _)) as [Hi|]; [|done].
    pose proof (decode_spec i) as Hd. destruct (decode i) as [v w]. destruct Hd as [Hw Hd]. destruct (decide ((w, v) ∈ used)) as [Hu|Hu]; [by eapply IH|].
    destruct (mbuild p _) as [p1|e] eqn:Eb; [|done]. cbn [rbind] in E.
    destruct (IH _ _ _ _ _ _ E) as (L & Hlen & Hp & Hnd & Hb & Hm). exists ((w, v) :: L). split; [cbn; lia|].
    split; [rewrite Hp; cbn; by rewrite Permutation_middle|].
    split; [intros Hn; apply Hnd; by constructor|]. split.
    + intros q [->|Hq]%elem_of_cons; [|by apply Hb]. cbn. split; [done|]. apply (tri_pos_bound v w n Hw). rewrite tri_eq in Hi. lia.
    + unfold ov_ops. cbn [mbind list_bind]. rewrite mbuild_app. unfold ov_sets at 1. cbn [fst snd]. rewrite Eb. exact Hm.
Qed.
Lemma ov_phases_inv n phs : forall p used rnd p' used' rnd', ov_phases n (p, used, rnd) phs = Ok (p', used', rnd') ->
  exists Ss, Forall2 (fun ph L => length L = ph.2) phs Ss /\ used' ≡ₚ concat Ss ++ used /\ (NoDup used -> NoDup used') /\
    (forall q, q ∈ concat Ss -> q.1 < q.2 /\ q.2 < n) /\ mbuild p (ov_all phs Ss) = Ok p'.
Proof.
  induction phs as [|[ls need] phs IH]; intros p used rnd p' used' rnd' E.
  - injection E as <- <- <-. exists []. split_and!; [constructor|done|done| |done]. by intros q ?%elem_of_nil.
  - unfold ov_phases in E. cbn [rfold fst snd] in E. destruct (ov_draw n ls need p used rnd) as [[[p1 used1] rnd1]|e] eqn:E1; [|done]. cbn [rbind] in E.
    destruct (ov_draw_inv _ _ _ _ _ _ _ _ _ E1) as (L & HL & HP & HN & HB & HM). destruct (IH _ _ _ _ _ _ E) as (Ss & HL' & HP' & HN' & HB' & HM').
    exists (L :: Ss). split_and!.
    + by constructor.
    + rewrite HP', HP. cbn. rewrite (Permutation_app_comm L (concat Ss)), <- app_assoc. done.
    + intros H. by apply HN', HN.
    + intros q [?|?]%elem_of_app; [by apply HB|by apply HB'].
    + unfold ov_all. cbn [zip zip_with mbind list_bind fst snd]. rewrite mbuild_app, HM. exact HM'.
Qed.

(** ** Termination *)
Fixpoint ov_cnt (used : list (nat * nat)) (rnd : list nat) : nat :=
  match rnd with
  | [] => 0
  | i :: r => let q := ((decode i).2, (decode i).1) in if decide (q ∈ used) then ov_cnt used r else S (ov_cnt (q :: used) r)
  end.
Lemma ov_sets_ok c h p ls q : mhist [c] false 0 true h p -> q.1 < q.2 -> exists p', mbuild p (ov_sets ls q) = Ok p' /\ exists h', mhist [c] false 0 true h' p'.
Proof.
  intros H Hq. destruct (mbuild_safe c false 0 true (ov_sets ls q) h p H) as (p' & E & H'); [|eauto].
  apply Forall_forall. intros o (l & -> & _)%elem_of_list_fmap. cbn. destruct q as [w v]. cbn in *. intros [= E]. lia.
Qed.
Lemma ov_draw_total c n ls rnd : Forall (fun i => i < n * (n - 1) / 2) rnd -> forall need p used h, mhist [c] false 0 true h p -> need <= ov_cnt used rnd ->
  exists p' used' rnd' h', ov_draw n ls need p used rnd = Ok (p', used', rnd') /\ mhist [c] false 0 true h' p' /\
    ov_cnt used' rnd' = ov_cnt used rnd - need /\ Forall (fun i => i < n * (n - 1) / 2) rnd'.
Proof.
  induction rnd as [|i rnd IH]; intros Hf [|need] p used h Hh Hn.
  - exists p, used, [], h. by rewrite Nat.sub_0_r.
  - cbn in Hn. lia.
  - exists p, used, (i :: rnd), h. by rewrite Nat.sub_0_r.
  - apply Forall_cons in Hf as [Hi Hf]. cbn [ov_draw]. rewrite decide_False by lia. rewrite decide_True by done. cbn [ov_cnt] in *.
    pose proof (decode_spec i) as Hd. destruct (decode i) as [v w]. destruct Hd as [Hw Hd]. cbn [fst snd] in *. destruct (decide ((w, v) ∈ used)) as [Hu|Hu]; [by eapply IH|].
    destruct (ov_sets_ok c h p ls (w, v) Hh Hw) as (p1 & E1 & h1 & Hh1). unfold ov_sets in E1. cbn [fst snd] in E1. rewrite E1. cbn [rbind].
    destruct (IH Hf need p1 ((w, v) :: used) h1 Hh1) as (p' & used' & rnd' & h' & E & H' & Hc & Hf'); [lia|]. exists p', used', rnd', h'. split_and!; [done..| |done]. lia.
Qed.
Lemma ov_phases_total c n phs : forall p used rnd h, Forall (fun i => i < n * (n - 1) / 2) rnd -> mhist [c] false 0 true h p ->
  sum_list (phs.*2) <= ov_cnt used rnd -> exists r, ov_phases n (p, used, rnd) phs = Ok r.
Proof.
  induction phs as [|[ls need] phs IH]; intros p used rnd h Hf Hh Hn; [by eexists|]. cbn [fmap list_fmap sum_list sum_list_with id snd] in Hn.
  destruct (ov_draw_total c n ls rnd Hf need p used h Hh) as (p' & used' & rnd' & h' & E & H' & Hc & Hf'); [cbn in Hn; lia|].
  unfold ov_phases. cbn [rfold fst snd]. rewrite E. cbn [rbind]. apply (IH p' used' rnd' h'); [done..|]. cbn in Hn. change (sum_list (phs.*2) <= ov_cnt used' rnd'). lia.
Qed.
Lemma decode_inj i j : decode i = decode j -> i = j.
Proof. intros E. pose proof (decode_spec i) as Hi. pose proof (decode_spec j) as Hj. rewrite E in Hi. destruct (decode j). lia. Qed.
Lemma ov_cnt_ge rnd : forall used D, NoDup D -> (forall i, i ∈ D -> i ∈ rnd /\ ((decode i).2, (decode i).1) ∉ used) -> length D <= ov_cnt used rnd.
Proof.
  induction rnd as [|i rnd IH]; intros used D Hnd HD.
  - destruct D as [|d D]; [done|]. destruct (HD d) as [?%elem_of_nil _]; [left|done].
  - cbn [ov_cnt]. destruct (decide _) as [Hu|Hu].
    + apply IH; [done|]. intros j Hj. destruct (HD j Hj) as [[->|?]%elem_of_cons ?]; done.
    + destruct (decide (i ∈ D)) as [Hi|Hi].
      * apply elem_of_Permutation in Hi as [D' HD']. rewrite HD'. cbn. apply le_n_S. rewrite HD' in Hnd. apply NoDup_cons in Hnd as [Hni Hnd].
        apply IH; [done|]. intros j Hj. destruct (HD j) as [Hr Hju]; [rewrite HD'; by right|]. assert (j <> i) by congruence.
        apply elem_of_cons in Hr as [?|Hr]; [done|]. split; [done|]. intros [E|?]%elem_of_cons; [|done]. apply H. apply decode_inj.
        injection E as E2 E1. by apply injective_projections.
      * apply le_S, IH; [done|]. intros j Hj. destruct (HD j Hj) as [Hr Hju]. assert (j <> i) by congruence.
        apply elem_of_cons in Hr as [?|Hr]; [done|]. split; [done|]. intros [E|?]%elem_of_cons; [|done]. apply H. apply decode_inj.
        injection E as E2 E1. by apply injective_projections.
Qed.
(** Outcomes other than a network. *)
Lemma ov_draw_err c n ls rnd : n * (n - 1) / 2 <> 0 -> forall need p used h e, mhist [c] false 0 true h p ->
  ov_draw n ls need p used rnd = Err e -> e = OutOfFuel.
Proof.
  intros Hn. induction rnd as [|i rnd IH]; intros [|need] p used h e Hh E; [done| |done|].
  - cbn [ov_draw] in E. rewrite decide_False in E by done. congruence.
  - cbn [ov_draw] in E. rewrite decide_False in E by done. destruct (decide (i < _)) as [Hi|]; [|congruence].
    pose proof (decode_spec i) as Hd. destruct (decode i) as [v w]. destruct Hd as [Hw Hd]. destruct (decide ((w, v) ∈ used)) as [Hu|Hu]; [by eapply IH|].
    destruct (ov_sets_ok c h p ls (w, v) Hh Hw) as (p1 & E1 & h1 & Hh1). unfold ov_sets in E1. cbn [fst snd] in E1. rewrite E1 in E. cbn [rbind] in E. by eapply IH.
Qed.
Lemma ov_draw_hist c n ls rnd : forall need p used h r, mhist [c] false 0 true h p -> ov_draw n ls need p used rnd = Ok r -> exists h', mhist [c] false 0 true h' (r.1.1).
Proof.
  intros need p used h [[p' used'] rnd'] Hh E. destruct (ov_draw_inv _ _ _ _ _ _ _ _ _ E) as (L & _ & _ & _ & HB & HM).
  destruct (mbuild_safe c false 0 true (ov_ops ls L) h p Hh) as (p2 & E2 & H2).
  - apply Forall_forall. intros o (q & (l & -> & _)%elem_of_list_fmap & Hq)%elem_of_list_bind. cbn. destruct (HB _ Hq). intros [= ?]. lia.
  - cbn. assert (p2 = p') as <- by congruence. eauto.
Qed.
Lemma ov_phases_err c n phs : n * (n - 1) / 2 <> 0 -> forall p used rnd h e, mhist [c] false 0 true h p ->
  ov_phases n (p, used, rnd) phs = Err e -> e = OutOfFuel.
Proof.
  intros Hn. induction phs as [|[ls need] phs IH]; intros p used rnd h e Hh E; [done|]. unfold ov_phases in E. cbn [rfold fst snd] in E.
  destruct (ov_draw n ls need p used rnd) as [[[p1 used1] rnd1]|e1] eqn:E1; cbn [rbind] in E.
  - destruct (ov_draw_hist _ _ _ _ _ _ _ _ _ Hh E1) as [h1 H1]. by eapply IH.
  - injection E as <-. by eapply ov_draw_err.
Qed.
Lemma ov_phases_empty n phs : n * (n - 1) / 2 = 0 -> forall p used rnd, 0 < sum_list (phs.*2) -> ov_phases n (p, used, rnd) phs = Err IndexError.
Proof.
  intros Hn. induction phs as [|[ls need] phs IH]; intros p used rnd Hs; [cbn in Hs; lia|]. unfold ov_phases. cbn [rfold fst snd].
  destruct need as [|need].
  - rewrite ov_draw_0. cbn [rbind]. by apply IH.
  - destruct rnd; cbn [ov_draw]; by rewrite decide_True.
Qed.

(** ** The number of links that are left *)
Lemma zcount_nil l : ov_count l [] = 0%Z.
Proof. done. Qed.
Lemma ov_count_cons l x ls : ov_count l (x :: ls) = ((if decide (x = l) then 1 else 0) + ov_count l ls)%Z.
Proof. unfold ov_count. rewrite filter_cons. destruct (decide (x = l)); cbn [length]; lia. Qed.
Lemma el_fold edges m ls : forall el l, NoDup (dkeys el) -> let el' := foldl (fun d l => dset d l (default edges (dget d l) - m)%Z) el ls in
  NoDup (dkeys el') /\ default edges (dget el' l) = (default edges (dget el l) - m * ov_count l ls)%Z /\
  (l ∈ dkeys el' <-> l ∈ dkeys el \/ l ∈ ls).
Proof.
  induction ls as [|x ls IH]; intros el l Hnd; cbn [foldl].
  - cbn. rewrite zcount_nil, elem_of_nil. split; [done|]. split; [lia|]. tauto.
  - destruct (IH (dset el x (default edges (dget el x) - m)%Z) l) as (H1 & H2 & H3); [by apply NoDup_dset|].
    split; [done|]. split.
    + rewrite H2, ov_count_cons, dget_dset. destruct (decide (l = x)) as [->|Hne].
      * rewrite decide_True by done. cbn. lia.
      * rewrite decide_False by congruence. lia.
    + rewrite H3, elem_of_dkeys_dset, elem_of_cons. tauto.
Qed.
Lemma el_step edges el cm l : NoDup (dkeys el) -> NoDup (dkeys (ov_el edges el cm)) /\
  default edges (dget (ov_el edges el cm) l) = (default edges (dget el l) - (if decide (2 <= length (cm.1))%nat then cm.2 * ov_count l (cm.1) else 0))%Z /\
  (l ∈ dkeys (ov_el edges el cm) <-> l ∈ dkeys el \/ l ∈ cm.1).
Proof.
  intros Hnd. destruct cm as [[|x [|y ls]] m]; unfold ov_el; cbn [fst snd].
  - rewrite decide_False by (cbn; lia). rewrite elem_of_nil. split; [done|]. split; [by rewrite Z.sub_0_r|tauto].
  - rewrite decide_False by (cbn; lia). split; [by apply NoDup_dset|]. split.
    + rewrite Z.sub_0_r, dget_dset. destruct (decide (l = x)) as [->|]; done.
    + rewrite elem_of_dkeys_dset, elem_of_list_singleton. tauto.
  - rewrite decide_True by (cbn; lia). by apply el_fold.
Qed.
Lemma el_all edges ps : forall el l, NoDup (dkeys el) -> NoDup (dkeys (foldl (ov_el edges) el ps)) /\
  default edges (dget (foldl (ov_el edges) el ps) l) =
    (default edges (dget el l) - zsumf (fun cm : list name * Z => if decide (2 <= length (cm.1))%nat then cm.2 * ov_count l (cm.1) else 0) ps)%Z /\
  (l ∈ dkeys (foldl (ov_el edges) el ps) <-> l ∈ dkeys el \/ ov_mentioned ps l).
Proof.
  induction ps as [|cm ps IH]; intros el l Hnd; cbn [foldl].
  - rewrite zsumf_nil. split; [done|]. split; [lia|]. split; [by left|]. intros [?|(cm & ?%elem_of_nil & _)]; done.
  - destruct (el_step edges el cm l Hnd) as (H1 & H2 & H3). destruct (IH (ov_el edges el cm) l H1) as (H4 & H5 & H6).
    split; [done|]. split; [rewrite H5, H2, zsumf_cons; lia|]. rewrite H6, H3. unfold ov_mentioned. setoid_rewrite elem_of_cons. naive_solver.
Qed.
Lemma el_left edges ps : let el := foldl (ov_el edges) [] ps in
  lists_exactly (dkeys el) (ov_mentioned ps) /\ forall l v, (l, v) ∈ el -> v = ov_left edges ps l.
Proof.
  intros el. assert (Hnd : NoDup (dkeys el)) by (apply (el_all edges ps [] (NInt 0)); constructor). split; [split; [done|]|].
  - intros l. destruct (el_all edges ps [] l) as (_ & _ & H); [constructor|]. fold el in H. rewrite H. split; [|by right]. intros [?%elem_of_nil|?]; done.
  - intros l v Hl%(dget_elem_of el l v Hnd). destruct (el_all edges ps [] l) as (_ & H & _); [constructor|]. fold el in H. rewrite Hl in H. exact H.
Qed.

(** ** The links *)
Definition npr (q : nat * nat) : name * name := (nd (q.1), nd (q.2)).
Lemma npr_inj q q' : npr q = npr q' -> q = q'.
Proof. destruct q, q'. intros [= ? ?]. f_equal; lia. Qed.
Definition ov_rel (phs : list (list name * nat)) (Ss : list (list (nat * nat))) (l : name) (q : nat * nat) : Prop :=
  exists t, t ∈ zip phs Ss /\ l ∈ t.1.1 /\ q ∈ t.2.
Lemma elem_of_ov_all phs Ss o : o ∈ ov_all phs Ss <-> exists l q, ov_rel phs Ss l q /\ o = MSet [nd (q.1); nd (q.2); l] 1.
Proof.
  unfold ov_all. rewrite elem_of_list_bind. split.
  - intros (t & (q & (l & -> & Hl)%elem_of_list_fmap & Hq)%elem_of_list_bind & Ht). exists l, q. split; [by exists t|done].
  - intros (l & q & (t & Ht & Hl & Hq) & ->). exists t. split; [|done]. apply elem_of_list_bind. exists q. split; [|done]. apply elem_of_list_fmap. by exists l.
Qed.
Lemma names_link1g x y l a b : names_link 1 [x; y; l] a b <-> a = [x; l] /\ b = [y; l].
Proof.
  split.
  - intros (Ha & Hb & [[H _]|[_ H]])%names_link_inv; [done|].
    destruct a as [|a1 [|a2 [|]]], b as [|b1 [|b2 [|]]]; try done. unfold short_link_to_link in H. simpl in H. by injection H as <- <- <- <-.
  - intros [-> ->]. exact (names_short 1 x y [l] eq_refl).
Qed.
Lemma elem_of_concat {A} (x : A) (Ss : list (list A)) : x ∈ concat Ss <-> exists S, x ∈ S /\ S ∈ Ss.
Proof.
  induction Ss as [|S Ss IH]; cbn [concat].
  - rewrite elem_of_nil. split; [done|]. intros (S & _ & ?%elem_of_nil). done.
  - rewrite elem_of_app, IH. setoid_rewrite elem_of_cons. naive_solver.
Qed.
Lemma ov_result c phs Ss p : (forall q, q ∈ concat Ss -> q.1 < q.2) -> mbuild (new_mpx [c] false 0 true) (ov_all phs Ss) = Ok p ->
  mhist [c] false 0 true (okc <$> ov_all phs Ss) p /\
  (forall x, mhas p 0 x <-> exists l q, ov_rel phs Ss l q /\ (x = nd (q.1) \/ x = nd (q.2))) /\
  (forall l, mhas p 1 l <-> exists q, ov_rel phs Ss l q) /\
  forall l, layer_links p l (fun x y => exists q, ov_rel phs Ss l q /\ (npr q = (x, y) \/ npr q = (y, x))).
Proof.
  intros HB E.
  assert (Hr : forall l q, ov_rel phs Ss l q -> q.1 < q.2).
  { intros l q (t & Ht & _ & Hq). apply HB, elem_of_concat. exists (t.2). split; [done|]. destruct t as [ph S]. by apply elem_of_zip_r in Ht. }
  destruct (mbuild_safe c false 0 true (ov_all phs Ss) [] (new_mpx [c] false 0 true)) as (p' & E' & Hh); [constructor| |].
  { apply Forall_forall. intros o (l & q & Hq%Hr & ->)%elem_of_ov_all. cbn. intros [= ?]. lia. }
  assert (p' = p) as -> by congruence. cbn [app] in Hh. split; [done|].
  assert (Hin : forall e, e ∈ okc <$> ov_all phs Ss <-> exists l q, ov_rel phs Ss l q /\ e = okc (MSet [nd (q.1); nd (q.2); l] 1)).
  { intros e. rewrite elem_of_list_fmap. split.
    - intros (o & -> & (l & q & ? & ->)%elem_of_ov_all). eauto.
    - intros (l & q & ? & ->). eexists. split; [done|]. apply elem_of_ov_all. eauto. }
  assert (Hm : forall l x y j z, mmentions 1 true (okc (MSet [x; y; l] 1)) j z <-> (j = 0 /\ (z = x \/ z = y)) \/ (j = 1 /\ z = l)).
  { intros l x y j z. unfold mmentions. simpl. split.
    - intros (a & b & w & [_ [-> ->]%names_link1g] & Hz). destruct j as [|[|j]]; simpl in Hz; [left|right|by destruct Hz];
        destruct Hz as [[= ->]|[= ->]]; auto.
    - intros H. exists [x; l], [y; l], 1%Z. split; [split; [done|]; by apply names_link1g|]. destruct H as [[-> [-> | ->]]|[-> ->]]; simpl; auto. }
  split; [|split].
  - intros z. rewrite (C51_nodes_layers_exact _ _ _ _ _ _ Hh) by done. setoid_rewrite Hin. split.
    + intros (e & (l & q & Hq & ->) & Hz). apply Hm in Hz as [[_ Hz]|[? _]]; [|done]. eauto.
    + intros (l & q & Hq & Hz). eexists. split; [exists l, q; done|]. apply Hm. auto.
  - intros l. rewrite (C51_nodes_layers_exact _ _ _ _ _ _ Hh) by done. setoid_rewrite Hin. split.
    + intros (e & (l' & q & Hq & ->) & Hz). apply Hm in Hz as [[? _]|[_ ->]]; [done|]. eauto.
    + intros (q & Hq). eexists. split; [exists l, q; done|]. apply Hm. auto.
  - intros l.
    assert (Hw : forall l' x y l i j w, mwrites 1 (okc (MSet [x; y; l'] 1)) (LBare l) i j w <-> w = 1%Z /\ i = x /\ j = y /\ l = l').
    { intros l' x y l0 i j w. unfold mwrites. simpl. split.
      - intros (_ & <- & (-> & -> & ->)%names_link1). done.
      - intros (-> & -> & -> & ->). split; [done|]. split; [done|]. by apply names_link1. }
    eapply layer_links_ext; [eapply (mones _ _ _ _ Hh)|].
    + intros e l0 i j w (l' & q & _ & ->)%Hin. by intros [-> _]%Hw.
    + intros l0 x w (l' & q & _ & He)%Hin. done.
    + intros x y Hne. split.
      * intros (e & (l' & q & Hq & ->)%Hin & [Ha|[_ Ha]]); apply Hw in Ha as (_ & -> & -> & ->); exists q; auto.
      * intros (q & Hq & [[= <- <-]|[= <- <-]]); (eexists; split; [apply Hin; exists l, q; done|]); [left|right; split; [done|]]; by apply Hw.
Qed.
Lemma own_concat (ks : list name) (vs : list (list (name * name))) : NoDup ks -> length ks = length vs ->
  (fun k => default [] (dget (zip ks vs) k)) <$> ks = vs.
Proof.
  intros Hnd. revert vs. induction Hnd as [|k ks Hk Hnd IH]; intros [|v vs] Hl; try done. cbn [zip zip_with fmap list_fmap]. f_equal.
  - cbn. by rewrite decide_True.
  - etransitivity; [|apply IH; by injection Hl]. apply list_fmap_ext. intros i x Hx%elem_of_list_lookup_2. cbn. rewrite decide_False by congruence. done.
Qed.
