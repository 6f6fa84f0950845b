(** * Property C67: equality of multiplex networks *)
From Verif Require Import MpxBuild PropsNet PropsMpx.

(** A coupling network is a network without aspects built with the public interface. *)
Definition coupling_nets_ok (cs : list coupling) : Prop := forall m, CNet m ∈ cs -> reachable m /\ aspects m = 0.
(** The same kind of coupling with the same weight, or equal coupling networks. *)
Definition same_coupling (c d : coupling) : Prop :=
  match c, d with
  | CNet m, CNet n => same_network m n
  | CNet _, _ | _, CNet _ => False
  | _, _ => c = d
  end.
(** The same nodes, elementary layers, node-layers and links inside the layers. *)
Definition same_content (p q : mpx) : Prop :=
  (forall k x, mhas p k x <-> mhas q k x) /\ (forall a, mexists p a <-> mexists q a) /\
  (forall l x y, agetitem p l [x; y] = agetitem q l [x; y]).
Definition same_multiplex (p q : mpx) : Prop :=
  mdir p = mdir q /\ mnoe p = mnoe q /\ mfic p = mfic q /\ Forall2 same_coupling (mcoup p) (mcoup q) /\ same_content p q.

Lemma coup_eq_exact c d : (forall m, c = CNet m -> reachable m /\ aspects m = 0) -> (forall m, d = CNet m -> reachable m /\ aspects m = 0) ->
  (exists b, coup_eq c d = Ok b) /\ (coup_eq c d = Ok true <-> same_coupling c d).
Proof.
  intros Hc Hd. destruct c as [v|v|v|m], d as [w|w|w|n]; simpl;
    try (split; [by eexists|]; split; [intros [= ?%bool_decide_eq_true]; congruence|intros [= ->]; by rewrite bool_decide_eq_true_2]);
    try (split; [by eexists|done]).
  destruct (Hc m eq_refl) as [Gm%reachable_good Am]. destruct (Hd n eq_refl) as [Gn%reachable_good An]. split; [|by apply net_eq_exact].
  apply net_eq_total. rewrite (wfS_fi0 m (proj1 Gm) Am), (wfS_fi0 n (proj1 Gn) An). done.
Qed.

Lemma coups_eq_exact cs ds : coupling_nets_ok cs -> coupling_nets_ok ds ->
  (exists b, coups_eq cs ds = Ok b) /\ (coups_eq cs ds = Ok true <-> Forall2 same_coupling cs ds).
Proof.
  revert ds. induction cs as [|c cs IH]; intros [|d ds] Hc Hd; simpl;
    try (split; [by eexists|]; split; [done|intros H; by inversion H]).
  destruct (coup_eq_exact c d) as [[b Hb] He]; [intros m ->; apply Hc; left|intros m ->; apply Hd; left|].
  destruct (IH ds) as [[b' Hb'] He']; [intros m Hm; apply Hc; by right|intros m Hm; apply Hd; by right|].
  rewrite Hb in *. destruct b; simpl.
  - split; [by eexists|]. rewrite He'. split; [intros H; constructor; [by apply He|done]|intros H; by inversion H].
  - split; [by eexists|]. split; [done|]. intros H. exfalso. inversion H; subst. assert (Ok false = Ok true) as ?; [by apply He|done].
Qed.

Section TwoNetworks.
  Context (cs cs' : list coupling) (dir : bool) (noe : Z) (fi dir' : bool) (noe' : Z) (fi' : bool) (h h' : list call) (p q : mpx).
  Context (Hp : pinv cs dir noe fi h p) (Hq : pinv cs' dir' noe' fi' h' q).
  Lemma layer_eq_exact l m n : dir = dir' -> pA p l = Some m -> pA q l = Some n ->
    (exists b, net_eq m n = Ok b) /\
    (net_eq m n = Ok true <-> (forall x, x ∈ net_nodes m <-> x ∈ net_nodes n) /\ forall x y, lrd p l x y = lrd q l x y).
  Proof using Hp Hq.
    intros Hd Hm Hn. destruct (pinv_layer _ _ _ _ _ _ _ _ Hp Hm) as (Gm & Am & Nm & Dm & Fm).
    destruct (pinv_layer _ _ _ _ _ _ _ _ Hq Hn) as (Gn & An & Nn & Dn & Fn).
    split; [apply net_eq_total; congruence|]. rewrite net_eq_exact by done. unfold same_network.
    setoid_rewrite (lrd_rd p l m _ _ Hm). setoid_rewrite (lrd_rd q l n _ _ Hn). split.
    - intros (_ & _ & _ & _ & H1 & _ & H2). split.
      + intros x. rewrite !net_nodes_sl, <- !has_elem_sl. apply H1.
      + intros x y. assert (reads m [x] [y] (rd m [x] [y])) as Hr by (apply reads_rd; [rewrite Am; done..|done]).
        apply H2 in Hr; [|rewrite Am; done..]. apply reads_rd in Hr; [done|rewrite An; done..].
    - intros [H1 H2]. split_and!; try congruence.
      + intros k x. change (has_elem m k x <-> has_elem n k x). rewrite !has_elem_sl. destruct k as [|k]; [rewrite <- !net_nodes_sl; apply H1|].
        assert (forall m', good m' -> aspects m' = 0 -> ~ sl m' (S k) x) as Hno.
        { intros m' [HS _] Ha (s & Hs & _). apply lookup_lt_Some in Hs. rewrite (wfS_len _ HS), Ha in Hs. lia. }
        split; intros H; exfalso; [exact (Hno m Gm Am H)|exact (Hno n Gn An H)].
      + intros l' x. unfold iter_nodes. rewrite Fm, Fn. apply H1.
      + intros a b w Ha Hb. rewrite Am in *. destruct a as [|x [|]]; try done. destruct b as [|y [|]]; try done.
        rewrite !reads_rd by (rewrite ?Am, ?An; done). by rewrite H2.
  Qed.
  Lemma layers_eq_exact ls : dir = dir' -> (forall l, l ∈ ls -> is_Some (pA p l) /\ is_Some (pA q l)) ->
    (exists b, layers_eq p q ls = Ok b) /\
    (layers_eq p q ls = Ok true <-> forall l m n, l ∈ ls -> pA p l = Some m -> pA q l = Some n ->
       (forall x, x ∈ net_nodes m <-> x ∈ net_nodes n) /\ forall x y, lrd p l x y = lrd q l x y).
  Proof using Hp Hq.
    intros Hd. induction ls as [|l ls IH]; intros Hls; simpl.
    { split; [by eexists|]. split; [|done]. intros _ l m n Hl. by apply elem_of_nil in Hl. }
    destruct (Hls l) as [[m Hm] [n Hn]]; [left|]. unfold layer_net. rewrite Hm, Hn. simpl.
    destruct (layer_eq_exact l m n Hd Hm Hn) as [[b Hb] He]. rewrite Hb in *.
    destruct IH as [[b' Hb'] He']; [intros l' Hl'; apply Hls; by right|]. simpl. destruct b.
    - split; [by eexists|]. rewrite He'. split.
      + intros H l' m' n' Hl' Hm' Hn'. apply elem_of_cons in Hl' as [->|Hl']; [|by eapply H].
        assert (m' = m) as -> by congruence. assert (n' = n) as -> by congruence. by apply He.
      + intros H l' m' n' Hl'. apply H. by right.
    - split; [by eexists|]. split; [done|]. intros H. exfalso. assert (Ok false = Ok true) as ?; [|done]. apply He. apply H; [left|done|done].
  Qed.
  Lemma slices_same : length cs = length cs' -> slices_eqb (mslices p) (mslices q) = true <-> forall k x, psl p k x <-> psl q k x.
  Proof using Hp Hq.
    intros Hl. pose proof (pw_len p (pi_wf _ _ _ _ _ _ Hp)) as Lp. pose proof (pw_len q (pi_wf _ _ _ _ _ _ Hq)) as Lq.
    rewrite (pinv_masp _ _ _ _ _ _ Hp) in Lp. rewrite (pinv_masp _ _ _ _ _ _ Hq) in Lq.
    rewrite slices_eqb_true, Forall2_same_length_lookup. unfold psl. split.
    - intros [_ H] k x. split; intros (s & Hs & Hx).
      + destruct (lookup_lt_is_Some_2 (mslices q) k) as [t Ht]; [apply lookup_lt_Some in Hs; lia|]. exists t. split; [done|]. by apply (H k s t Hs Ht).
      + destruct (lookup_lt_is_Some_2 (mslices p) k) as [t Ht]; [apply lookup_lt_Some in Hs; lia|]. exists t. split; [done|]. by apply (H k t s Ht Hs).
    - intros H. split; [lia|]. intros k s t Hs Ht x. specialize (H k x). split; intros Hx.
      + destruct (proj1 H) as (t' & Ht' & ?); [by exists s|]. congruence.
      + destruct (proj2 H) as (t' & Ht' & ?); [by exists t|]. congruence.
  Qed.
  Lemma pA_same l : length cs = length cs' -> (forall k x, psl p k x <-> psl q k x) -> is_Some (pA p l) <-> is_Some (pA q l).
  Proof using Hp Hq.
    intros Hl Hs. pose proof (pinv_masp _ _ _ _ _ _ Hp) as Ap. pose proof (pinv_masp _ _ _ _ _ _ Hq) as Aq.
    assert (lay_in p l <-> lay_in q l) as Hli. { unfold lay_in. rewrite Ap, Aq, Hl. destruct l as [y|ls]; by setoid_rewrite Hs. }
    split; intros [m Hm]; apply pA_lay in Hm as [H1 H2]; try (by eapply pi_wf).
    - destruct (lay_pA q l) as [n Hn]; [by eapply pi_wf|by apply Hli|congruence|by exists n].
    - destruct (lay_pA p l) as [n Hn]; [by eapply pi_wf|by apply Hli|congruence|by exists n].
  Qed.
End TwoNetworks.

Lemma agetitem_lrd p l x y : agetitem p l [x; y] = match pA p l with Some _ => Ok (lrd p l x y) | None => Err KeyError end.
Proof. unfold agetitem, lrd. by destruct (pA p l). Qed.
Lemma n2l_same cs dir noe h p l m x : pinv cs dir noe false h p -> pA p l = Some m -> x ∈ net_nodes m <-> l ∈ mn2lv p x.
Proof.
  intros H Hm. unfold pA in Hm. destruct (dget (mA p) l) as [m0|] eqn:E; [|done].
  rewrite (pi_fic _ _ _ _ _ _ H) in Hm. injection Hm as ->.
  apply (pw_node p (pi_wf _ _ _ _ _ _ H) (pi_fic _ _ _ _ _ _ H) l m). done.
Qed.

Lemma meq_exact cs cs' dir dir' noe noe' fi fi' h h' p q : pinv cs dir noe fi h p -> pinv cs' dir' noe' fi' h' q ->
  coupling_nets_ok cs -> coupling_nets_ok cs' -> (exists b, meq p q = Ok b) /\ (meq p q = Ok true <-> same_multiplex p q).
Proof.
  intros Hp Hq Hc Hc'. pose proof (pinv_masp _ _ _ _ _ _ Hp) as Ap. pose proof (pinv_masp _ _ _ _ _ _ Hq) as Aq.
  pose proof (pi_wf _ _ _ _ _ _ Hp) as Wp. pose proof (pi_wf _ _ _ _ _ _ Hq) as Wq.
  pose proof (pi_coup _ _ _ _ _ _ Hp) as Cp. pose proof (pi_coup _ _ _ _ _ _ Hq) as Cq.
  pose proof (pi_dir _ _ _ _ _ _ Hp) as Dp. pose proof (pi_dir _ _ _ _ _ _ Hq) as Dq.
  pose proof (pi_noe _ _ _ _ _ _ Hp) as Np. pose proof (pi_noe _ _ _ _ _ _ Hq) as Nq.
  pose proof (pi_fic _ _ _ _ _ _ Hp) as Fp. pose proof (pi_fic _ _ _ _ _ _ Hq) as Fq.
  unfold meq, same_multiplex, same_content. rewrite Ap, Aq, Cp, Cq, Dp, Dq, Np, Nq, Fp, Fq.
  destruct (coups_eq_exact cs cs' Hc Hc') as [[bc Hbc] Hce].
  assert (Hlen : Forall2 same_coupling cs cs' -> length cs = length cs') by apply Forall2_length.
  setoid_rewrite <- psl_mhas.
  destruct (decide (dir = dir')) as [<-|Hd].
  2:{ rewrite (bool_decide_eq_false_2 (dir = dir')) by done. simpl. split; [by eexists|]. split; [done|]. by intros (? & _). }
  destruct (decide (length cs = length cs')) as [Hl|Hl].
  2:{ rewrite (bool_decide_eq_false_2 (length cs = length cs')) by done. rewrite andb_false_r. simpl. split; [by eexists|]. split; [done|].
      intros (_ & _ & _ & H & _). by apply Hlen in H. }
  destruct (decide (fi = fi')) as [<-|Hf].
  2:{ rewrite (bool_decide_eq_false_2 (fi = fi')) by done. rewrite andb_false_r. simpl. split; [by eexists|]. split; [done|]. by intros (_ & _ & ? & _). }
  destruct (decide (noe = noe')) as [<-|Hno].
  2:{ rewrite (bool_decide_eq_false_2 (noe = noe')) by done. rewrite andb_false_r. simpl. split; [by eexists|]. split; [done|]. by intros (_ & ? & _). }
  rewrite (bool_decide_eq_true_2 (dir = dir)), (bool_decide_eq_true_2 (length cs = length cs')), (bool_decide_eq_true_2 (fi = fi)),
    (bool_decide_eq_true_2 (noe = noe)) by done. cbn [andb].
  destruct (slices_eqb (mslices p) (mslices q)) eqn:Es.
  2:{ split; [by eexists|]. split; [done|]. intros (_ & _ & _ & _ & H & _). apply (slices_same _ _ _ _ _ _ _ _ _ _ _ _ Hp Hq Hl) in H. congruence. }
  pose proof (proj1 (slices_same _ _ _ _ _ _ _ _ _ _ _ _ Hp Hq Hl) Es) as Hsl. rewrite Hbc in *. cbn [rbind].
  destruct bc.
  2:{ split; [by eexists|]. split; [done|]. intros (_ & _ & _ & H & _). apply Hce in H. done. }
  pose proof (proj1 Hce eq_refl) as Hcs. pose proof (fun l => pA_same _ _ _ _ _ _ _ _ _ _ _ _ Hp Hq l Hl Hsl) as HpA.
  assert (Hls : forall l, l ∈ mlayers p <-> is_Some (pA p l)).
  { intros l. rewrite elem_of_mlayers by done. split; [intros [H1 H2]; destruct (lay_pA p l Wp H1 H2); eauto|intros [m Hm]; by apply (pA_lay p l m)]. }
  destruct (layers_eq_exact _ _ _ _ _ _ _ _ _ _ _ _ Hp Hq (mlayers p) eq_refl) as [Hex Hle].
  { intros l Hl'. apply Hls in Hl'. split; [done|]. by apply HpA. }
  split; [done|]. rewrite Hle. split.
  - intros H. split_and!; try done.
    + intros a. rewrite !mexists_iff by done. rewrite Fp, Fq, Ap, Aq, <- Hl. destruct fi.
      * by setoid_rewrite Hsl.
      * assert (forall x l, full_form (length cs) l -> l ∈ mn2lv p x <-> l ∈ mn2lv q x) as Hn.
        { intros x l Hf. destruct (pA p l) as [m|] eqn:Em.
          - destruct (proj1 (HpA l)) as [n En]; [by eexists|]. rewrite <- (n2l_same _ _ _ _ _ _ _ x Hp Em), <- (n2l_same _ _ _ _ _ _ _ x Hq En).
            apply (H l m n); [by apply Hls; eexists|done|done].
          - assert (pA q l = None) as En. { destruct (pA q l) eqn:E; [|done]. destruct (proj2 (HpA l)) as [? ?]; [by eexists|congruence]. }
            split; intros Hin; exfalso.
            + destruct (pw_n2l p Wp _ _ Hin) as [_ Hi]. destruct (lay_pA p l Wp Hi) as [? ?]; [congruence|congruence].
            + destruct (pw_n2l q Wq _ _ Hin) as [_ Hi]. destruct (lay_pA q l Wq Hi) as [? ?]; [congruence|congruence]. }
        split; intros (x & l & H1 & H2 & H3); exists x, l; (split; [done|]); (split; [done|]); by apply Hn.
    + intros l x y. rewrite !agetitem_lrd. destruct (pA p l) as [m|] eqn:Em.
      * destruct (proj1 (HpA l)) as [n En]; [by eexists|]. rewrite En. f_equal. apply (H l m n); [apply Hls; by eexists|done|done].
      * destruct (pA q l) eqn:E; [|done]. destruct (proj2 (HpA l)) as [? ?]; [by eexists|congruence].
  - intros (_ & _ & _ & _ & _ & Hme & Hag) l m n Hl' Hm Hn. split.
    + intros x. destruct fi.
      * rewrite (pA_nodes_fic p l m Hm Fp), (pA_nodes_fic q l n Hn Fq), !mnodes_psl. apply Hsl.
      * rewrite (n2l_same _ _ _ _ _ _ _ x Hp Hm), (n2l_same _ _ _ _ _ _ _ x Hq Hn). destruct (pA_lay p l m Wp Hm) as [_ Hfo].
        assert (Hi : forall (p0 : mpx) cs0 h0, pinv cs0 dir noe false h0 p0 -> full_form (maspects p0) l ->
                  l ∈ mn2lv p0 x <-> mexists p0 (nl_of x l)).
        { intros p0 cs0 h0 H0 Hf0. destruct (nl_of_form _ x l Hf0) as (F1 & F2 & F3 & F4).
          rewrite mexists_nf; [by rewrite F3, F4|by eapply pi_wf|by eapply pi_fic|done|done]. }
        rewrite (Hi p _ _ Hp), (Hi q _ _ Hq); [apply Hme|congruence|done].
    + intros x y. specialize (Hag l x y). rewrite !agetitem_lrd, Hm, Hn in Hag. congruence.
Qed.
(** ** C67 *)
Lemma n2l_mexists cs dir noe h p l x : pinv cs dir noe false h p -> full_form (maspects p) l -> l ∈ mn2lv p x <-> mexists p (nl_of x l).
Proof.
  intros H Hf. destruct (nl_of_form _ x l Hf) as (F1 & F2 & F3 & F4).
  rewrite mexists_nf; [by rewrite F3, F4|by eapply pi_wf|by eapply pi_fic|done|done].
Qed.
(** Two multiplex networks compare equal exactly if they have the same direction, noEdge
    value, interconnection and couplings, the same nodes, elementary layers and node-layers,
    and the same links inside every layer; the comparison never raises. *)
Theorem C67_equality cs dir noe fi h p cs' dir' noe' fi' h' q :
  mhist cs dir noe fi h p -> mhist cs' dir' noe' fi' h' q -> coupling_nets_ok cs -> coupling_nets_ok cs' ->
  meq p q = Ok true <-> same_multiplex p q.
Proof. intros Hp%mhist_inv Hq%mhist_inv Hc Hc'. by eapply meq_exact. Qed.
Theorem C67_never_raises cs dir noe fi h p cs' dir' noe' fi' h' q :
  mhist cs dir noe fi h p -> mhist cs' dir' noe' fi' h' q -> coupling_nets_ok cs -> coupling_nets_ok cs' ->
  exists b, meq p q = Ok b.
Proof. intros Hp%mhist_inv Hq%mhist_inv Hc Hc'. by eapply meq_exact. Qed.

Lemma same_network_refl n : same_network n n.
Proof. by repeat split. Qed.
Lemma same_network_sym n m : same_network n m -> same_network m n.
Proof.
  intros (H1 & H2 & H3 & H4 & H5 & H6 & H7). split_and!; try done.
  intros a b w Ha Hb. symmetry. apply H7; congruence.
Qed.
Lemma same_network_trans n m k : same_network n m -> same_network m k -> same_network n k.
Proof.
  intros (H1 & H2 & H3 & H4 & H5 & H6 & H7) (G1 & G2 & G3 & G4 & G5 & G6 & G7). split_and!; try congruence.
  - intros i x. etransitivity; [apply H5|apply G5].
  - intros l x. etransitivity; [apply H6|apply G6].
  - intros a b w Ha Hb. etransitivity; [apply H7|apply G7]; congruence.
Qed.
Lemma same_coupling_refl c : same_coupling c c.
Proof. by destruct c. Qed.
Lemma same_coupling_sym c d : same_coupling c d -> same_coupling d c.
Proof. destruct c, d; simpl; try congruence; try done. apply same_network_sym. Qed.
Lemma same_coupling_trans c d e : same_coupling c d -> same_coupling d e -> same_coupling c e.
Proof. destruct c, d, e; simpl; try done; try congruence. apply same_network_trans. Qed.
Lemma same_multiplex_refl p : same_multiplex p p.
Proof.
  split_and!; try done. apply Forall_Forall2_diag, Forall_forall. intros c _. apply same_coupling_refl.
Qed.
Lemma same_multiplex_sym p q : same_multiplex p q -> same_multiplex q p.
Proof.
  intros (H1 & H2 & H3 & H4 & H5 & H6 & H7). split_and!; try done.
  apply Forall2_flip. eapply Forall2_impl; [done|]. intros c d H. by apply same_coupling_sym.
Qed.
Lemma same_multiplex_trans p q r : same_multiplex p q -> same_multiplex q r -> same_multiplex p r.
Proof.
  intros (H1 & H2 & H3 & H4 & H5 & H6 & H7) (G1 & G2 & G3 & G4 & G5 & G6 & G7). split_and!; try congruence.
  - clear -H4 G4. revert G4. generalize (mcoup r). induction H4 as [|c d l k Hcd Hlk IH]; intros s Hs; [done|].
    inversion Hs; subst. constructor; [by eapply same_coupling_trans|by apply IH].
  - split_and!; [intros; by rewrite H5|intros; by rewrite H6|intros; by rewrite H7].
Qed.
(** Equality is reflexive, symmetric and transitive. *)
Theorem C67_reflexive cs dir noe fi h p : mhist cs dir noe fi h p -> coupling_nets_ok cs -> meq p p = Ok true.
Proof. intros H Hc. eapply C67_equality; [done..|]. apply same_multiplex_refl. Qed.
Theorem C67_symmetric cs dir noe fi h p cs' dir' noe' fi' h' q :
  mhist cs dir noe fi h p -> mhist cs' dir' noe' fi' h' q -> coupling_nets_ok cs -> coupling_nets_ok cs' ->
  meq p q = meq q p.
Proof.
  intros Hp Hq Hc Hc'. destruct (C67_never_raises _ _ _ _ _ _ _ _ _ _ _ _ Hp Hq Hc Hc') as [b Hb].
  destruct (C67_never_raises _ _ _ _ _ _ _ _ _ _ _ _ Hq Hp Hc' Hc) as [b' Hb'].
  pose proof (C67_equality _ _ _ _ _ _ _ _ _ _ _ _ Hp Hq Hc Hc') as E. pose proof (C67_equality _ _ _ _ _ _ _ _ _ _ _ _ Hq Hp Hc' Hc) as E'.
  assert (meq p q = Ok true <-> meq q p = Ok true) as Hi. { rewrite E, E'. split; apply same_multiplex_sym. }
  rewrite Hb, Hb' in *. destruct b, b'; try done; [symmetry|]; by apply Hi.
Qed.
Theorem C67_transitive cs dir noe fi h p cs' dir' noe' fi' h' q cs'' dir'' noe'' fi'' h'' r :
  mhist cs dir noe fi h p -> mhist cs' dir' noe' fi' h' q -> mhist cs'' dir'' noe'' fi'' h'' r ->
  coupling_nets_ok cs -> coupling_nets_ok cs' -> coupling_nets_ok cs'' ->
  meq p q = Ok true -> meq q r = Ok true -> meq p r = Ok true.
Proof.
  intros Hp Hq Hr Hc Hc' Hc'' H1 H2. apply (C67_equality _ _ _ _ _ _ _ _ _ _ _ _ Hp Hr Hc Hc'').
  apply (C67_equality _ _ _ _ _ _ _ _ _ _ _ _ Hp Hq Hc Hc') in H1. apply (C67_equality _ _ _ _ _ _ _ _ _ _ _ _ Hq Hr Hc' Hc'') in H2.
  by eapply same_multiplex_trans.
Qed.

Lemma lin_ext (x : name) s t : (x ∈ s <-> x ∈ t) -> lin x s = lin x t.
Proof. intros H. unfold lin. by apply bool_decide_ext. Qed.
Lemma pget_pair_ext p q a b : maspects p = maspects q -> mnoe p = mnoe q -> mfic p = mfic q ->
  (forall x, x ∈ mnodes p <-> x ∈ mnodes q) ->
  (forall l, match pA p l, pA q l with
             | Some m, Some n => (forall x, x ∈ net_nodes m <-> x ∈ net_nodes n) /\ forall x y, get_link m [x; y] = get_link n [x; y]
             | None, None => True | _, _ => False end) ->
  (forall d x y m, mcoup p !! d = Some (CNet m) -> exists n, mcoup q !! d = Some (CNet n) /\ get_link m [x; y] = get_link n [x; y]) ->
  (forall d c, mcoup p !! d = Some c -> is_cnet c = false -> mcoup q !! d = Some c) ->
  (forall d, mcoup p !! d = None -> mcoup q !! d = None) ->
  pget_pair p a b = pget_pair q a b.
Proof.
  intros Ha Hn Hf Hx HA Hc1 Hc2 Hc3. unfold pget_pair. rewrite <- Ha, <- Hn, <- Hf.
  destruct (inter_aspects a b) as [|d [|]]; try done. destruct (decide (d = 0)).
  - specialize (HA (lkey (maspects p) (tail a))). destruct (pA p _), (pA q _); try done. by rewrite (proj2 HA).
  - rewrite (lin_ext _ _ _ (Hx (node_of a))). destruct (lin _ (mnodes q)); [|done].
    assert (Hboth : (if mfic p then Ok true else match pA p (lkey (maspects p) (tail a)) with
        | None => Err KeyError
        | Some m1 => if lin (node_of a) (net_nodes m1) then
              match pA p (lkey (maspects p) (tail b)) with None => Err KeyError | Some m2 => Ok (lin (node_of a) (net_nodes m2)) end
            else Ok false end) = (if mfic p then Ok true else match pA q (lkey (maspects p) (tail a)) with
        | None => Err KeyError
        | Some m1 => if lin (node_of a) (net_nodes m1) then
              match pA q (lkey (maspects p) (tail b)) with None => Err KeyError | Some m2 => Ok (lin (node_of a) (net_nodes m2)) end
            else Ok false end)).
    { destruct (mfic p); [done|]. pose proof (HA (lkey (maspects p) (tail a))) as H1. pose proof (HA (lkey (maspects p) (tail b))) as H2.
      destruct (pA p (lkey (maspects p) (tail a))), (pA q (lkey (maspects p) (tail a))); try done.
      rewrite (lin_ext _ _ _ (proj1 H1 (node_of a))). destruct (lin _ _); [|done].
      destruct (pA p (lkey (maspects p) (tail b))), (pA q (lkey (maspects p) (tail b))); try done.
      by rewrite (lin_ext _ _ _ (proj1 H2 (node_of a))). }
    rewrite Hboth. match goal with |- rbind ?X _ = _ => destruct X as [both|e] end; [|done]. cbn [rbind]. destruct both; [|done].
    destruct (mcoup p !! (d - 1)) as [c|] eqn:Ec; [|by rewrite (Hc3 _ Ec)].
    destruct (is_cnet c) eqn:Ei; [|by rewrite (Hc2 _ _ Ec Ei)]. destruct c as [| | |m]; try done.
    destruct (a !! d) as [x|]; [|by destruct (Hc1 _ (NInt 0) (NInt 0) _ Ec) as (n' & -> & _)].
    destruct (b !! d) as [y|]; [destruct (Hc1 _ x y _ Ec) as (n' & -> & Hg); by rewrite Hg|by destruct (Hc1 _ x x _ Ec) as (n' & -> & _)].
Qed.
Lemma C67_layers cs dir noe fi h p cs' dir' noe' fi' h' q : pinv cs dir noe fi h p -> pinv cs' dir' noe' fi' h' q ->
  maspects p = maspects q -> mdir p = mdir q -> mfic p = mfic q -> same_content p q ->
  (forall x, x ∈ mnodes p <-> x ∈ mnodes q) /\
  (forall l, match pA p l, pA q l with
             | Some m, Some n => (forall x, x ∈ net_nodes m <-> x ∈ net_nodes n) /\ forall x y, get_link m [x; y] = get_link n [x; y]
             | None, None => True | _, _ => False end).
Proof.
  intros Hp Hq Ha Hd Hf (Hh & He & Hag).
  assert (Hsl : forall k x, psl p k x <-> psl q k x) by (intros; by rewrite !psl_mhas).
  split; [intros x; by rewrite !mnodes_psl|]. intros l.
  assert (length cs = length cs') as Hl. { by rewrite <- (pinv_masp _ _ _ _ _ _ Hp), <- (pinv_masp _ _ _ _ _ _ Hq). }
  pose proof (pA_same _ _ _ _ _ _ _ _ _ _ _ _ Hp Hq l Hl Hsl) as Hs.
  destruct (pA p l) as [m|] eqn:Em, (pA q l) as [n|] eqn:En; [|by destruct (proj1 Hs) as [? ?]; eauto|by destruct (proj2 Hs) as [? ?]; eauto|done].
  split.
  - intros x. rewrite (pi_fic _ _ _ _ _ _ Hp), (pi_fic _ _ _ _ _ _ Hq) in Hf. subst fi'. destruct fi.
    + rewrite (pA_nodes_fic p l m Em (pi_fic _ _ _ _ _ _ Hp)), (pA_nodes_fic q l n En (pi_fic _ _ _ _ _ _ Hq)), !mnodes_psl. apply Hsl.
    + rewrite (n2l_same _ _ _ _ _ _ _ x Hp Em), (n2l_same _ _ _ _ _ _ _ x Hq En). destruct (pA_lay p l m (pi_wf _ _ _ _ _ _ Hp) Em) as [_ Hfo].
      rewrite (n2l_mexists _ _ _ _ _ _ _ Hp Hfo). rewrite Ha in Hfo. rewrite (n2l_mexists _ _ _ _ _ _ _ Hq Hfo). apply He.
  - intros x y. specialize (Hag l x y). unfold agetitem in Hag. rewrite Em, En in Hag. simpl in Hag. congruence.
Qed.
(** Equal networks answer every index tuple alike, errors included. *)
Theorem C67_equal_networks_read_alike cs dir noe fi h p cs' dir' noe' fi' h' q :
  mhist cs dir noe fi h p -> mhist cs' dir' noe' fi' h' q -> coupling_nets_ok cs -> coupling_nets_ok cs' ->
  meq p q = Ok true -> forall item, pgetitem p item = pgetitem q item.
Proof.
  intros Hp Hq Hc Hc' He item. apply (C67_equality _ _ _ _ _ _ _ _ _ _ _ _ Hp Hq Hc Hc') in He.
  destruct He as (Hd & Hn & Hf & Hcs & Hh & He & Hag). apply mhist_inv in Hp, Hq.
  assert (maspects p = maspects q) as Ha by (unfold maspects; by apply Forall2_length in Hcs).
  assert (Hx : forall a b, pget_pair p a b = pget_pair q a b).
  { intros a b. destruct (C67_layers _ _ _ _ _ _ _ _ _ _ _ _ Hp Hq Ha Hd Hf (conj Hh (conj He Hag))) as [H1 H2].
    assert (Hco := pi_coup _ _ _ _ _ _ Hp). assert (Hco' := pi_coup _ _ _ _ _ _ Hq).
    apply pget_pair_ext; try done.
    - intros d x y m Hm. destruct (Forall2_lookup_l _ _ _ _ _ Hcs Hm) as (c & Hq' & Hs). destruct c as [| | |n]; try done. exists n. split; [done|].
      destruct (Hc m) as [_ Am]; [rewrite <- Hco; by apply elem_of_list_lookup_2 with d|].
      destruct Hs as (An & _ & _ & _ & _ & _ & Hr). change (weight m [x] [y] = weight n [x] [y]). rewrite !weight_rd by done.
      apply reads_rd; [by rewrite <- An, Am..|]. apply Hr; [by rewrite Am..|]. apply reads_rd; [by rewrite Am..|done].
    - intros d c Hm Hi. destruct (Forall2_lookup_l _ _ _ _ _ Hcs Hm) as (c' & Hq' & Hs). rewrite Hq'. f_equal. by destruct c, c'.
    - intros d Hm. apply lookup_ge_None. rewrite <- (Forall2_length _ _ _ Hcs). by apply lookup_ge_None. }
  unfold pgetitem, psetitem_link. rewrite <- Ha.
  destruct (decide _) as [|]; [|destruct (decide _) as [|]; [|done]]; cbn [rbind]; unfold pget_link;
    destruct (link_to_nodes _) as [a b]; apply Hx.
Qed.

(** Built in different orders, with different call forms and a coupling network. *)
Definition exeq_net : mlnet := run (new_net 0 0 false true) [OpSet [sa; sb] 2].
Definition exeq_net' : mlnet := run (new_net 0 0 false true) [OpAddNode sb None; OpSet [sb; sa] 2].
Definition exeq1 := mcalls (new_mpx [CNet exeq_net; CCat 3] true 0 false)
  [MSet [n1; n2; sa; n1] 4; MSet [n2; n3; sb; n2] 5; MAddNode n1 (Some (LTup [sb; n1]))].
Definition exeq2 := mcalls (new_mpx [CNet exeq_net'; CCat 3] true 0 false)
  [MAddLayer sb 1; MNodeSet [n2; sb; n2] [n3; sb; n2] 7; MAddNode n1 (Some (LTup [sb; n1])); MASet (LTup [sb; n2]) [n2; n3] 5; MSet [n1; n2; sa; n1] 4].
Definition exeq3 := mcalls (new_mpx [CNet exeq_net; CCat 3] true 0 false)
  [MSet [n1; n2; sa; n1] 4; MSet [n2; n3; sb; n2] 5].
Example C67_example : coupling_nets_ok [CNet exeq_net; CCat 3] /\ coupling_nets_ok [CNet exeq_net'; CCat 3] /\
  mhist [CNet exeq_net; CCat 3] true 0 false exeq1.1 exeq1.2 /\ mhist [CNet exeq_net'; CCat 3] true 0 false exeq2.1 exeq2.2 /\
  exeq1.2 <> exeq2.2 /\ meq exeq1.2 exeq2.2 = Ok true /\ meq exeq1.2 exeq3.2 = Ok false /\ same_multiplex exeq1.2 exeq2.2.
Proof.
  assert (H1 : coupling_nets_ok [CNet exeq_net; CCat 3]).
  { intros m [E|[E|E%elem_of_nil]%elem_of_cons]%elem_of_cons; [injection E as ->|done|done]. split; [|done].
    eexists _, _, _, _, _. by apply run_hist0. }
  assert (H2 : coupling_nets_ok [CNet exeq_net'; CCat 3]).
  { intros m [E|[E|E%elem_of_nil]%elem_of_cons]%elem_of_cons; [injection E as ->|done|done]. split; [|done].
    eexists _, _, _, _, _. by apply run_hist0. }
  assert (H3 : mhist [CNet exeq_net; CCat 3] true 0 false exeq1.1 exeq1.2) by apply mcalls_hist.
  assert (H4 : mhist [CNet exeq_net'; CCat 3] true 0 false exeq2.1 exeq2.2) by apply mcalls_hist.
  assert (H5 : meq exeq1.2 exeq2.2 = Ok true) by (by vm_compute).
  split; [exact H1|]. split; [exact H2|]. split; [exact H3|]. split; [exact H4|].
  split; [intros E; apply (f_equal mcoup) in E; vm_compute in E; discriminate E|].
  split; [exact H5|]. split; [by vm_compute|]. exact (proj1 (C67_equality _ _ _ _ _ _ _ _ _ _ _ _ H3 H4 H1 H2) H5).
Qed.
Print Assumptions C67_equality.
Print Assumptions C67_never_raises.
Print Assumptions C67_reflexive.
Print Assumptions C67_symmetric.
Print Assumptions C67_transitive.
Print Assumptions C67_equal_networks_read_alike.
