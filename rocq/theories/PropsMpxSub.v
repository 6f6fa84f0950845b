(** * Property C69: subnetworks of multiplex networks *)
From Verif Require Import MpxSub PropsNet PropsMpx PropsTrans PropsMpxEq PropsMpxRelabel.

(** [args] has the selected nodes, then the selected elementary layers of each aspect
    ([None]: all); [sel_name] and [sel_nl] as in C25.  Only existing layers are selected. *)
Definition sel_layers_exist (p : mpx) (args : list (option (list name))) : Prop :=
  forall k l x, args !! S k = Some (Some l) -> x ∈ l -> mhas p (S k) x.
(** Nodes, layers and node-layers of the subnetwork. *)
Definition sub_structure (p : mpx) (args : list (option (list name))) (q : mpx) : Prop :=
  (forall k x, mfic p = true \/ k <> 0 -> mhas q k x <-> mhas p k x /\ exists o, args !! k = Some o /\ sel_name o x) /\
  (mfic p = false -> forall x, mhas q 0 x <-> exists a, mexists q a /\ a !! 0 = Some x) /\
  (forall a, mexists q a <-> mexists p a /\ sel_nl args a).

Lemma sub_structure_of cs dir noe fi h p args q : pinv cs dir noe fi h p ->
  (forall k x, psl q k x <-> sub_name fi p args k x) -> (forall a, mexists q a <-> sub_nl p args a) -> sub_structure p args q.
Proof.
  intros Hp Hs He. pose proof (pi_wf _ _ _ _ _ _ Hp) as Hw. pose proof (pi_fic _ _ _ _ _ _ Hp) as Hf. unfold sub_structure. rewrite Hf. split_and!.
  - intros k x Hk. rewrite <- !psl_mhas, Hs. unfold sub_name, sel_at. split.
    + intros [(? & ? & _)|(E & -> & _)]; [done|]. destruct Hk; congruence.
    + intros [? ?]. by left.
  - intros Ef x. rewrite <- psl_mhas, Hs. unfold sub_name. setoid_rewrite He. unfold sub_nl. split.
    + intros [(_ & _ & [?|?])|(_ & _ & a & Ha & Hsel & <-)]; [congruence|done|]. exists a. split; [done|].
      destruct (mexists_psl p a Hw Ha) as (Hl & _). by destruct a.
    + intros (a & [Ha Hsel] & Hx). right. split; [done|]. split; [done|]. exists a. split; [done|]. split; [done|]. destruct a; [done|]. by injection Hx as ->.
  - done.
Qed.
Lemma combos_exist cs dir noe fi h p args : pinv cs dir noe fi h p -> 1 <= length cs -> length args = S (length cs) -> sel_layers_exist p args ->
  forall ls, ls ∈ cart (tail (mselection p args)) -> is_Some (pA p (lkey (length cs) ls)).
Proof.
  intros Hp H1 Hl Hsel ls Hls. apply (combo_elem cs dir noe fi h p args Hp H1) in Hls as [Hlen Hk]; [|done].
  apply lkey_pA; [done|by eapply pi_wf|by eapply pinv_masp|done|]. intros k z Hz. specialize (Hk k z Hz). unfold mselection in Hk.
  rewrite list_lookup_imap in Hk. destruct (args !! S k) as [[l|]|] eqn:E; simpl in Hk.
  - rewrite elem_of_remove_dups in Hk. apply psl_mhas. by apply (Hsel k l).
  - by apply slice_psl.
  - by apply elem_of_nil in Hk.
Qed.

(** ** C69 *)
Theorem C69_subnet cs dir noe fi h p args : mhist cs dir noe fi h p -> 1 <= length cs -> (forall m, CNet m ∉ cs) ->
  length args = S (length cs) -> sel_layers_exist p args ->
  exists q g, msubnet p args false = Ok q /\ mhist cs dir noe fi g q /\ sub_structure p args q /\
    (forall a b, mexists q a -> mexists q b -> reads_alike p a b q a b) /\
    (forall l x y, mexists q (nl_of x l) -> mexists q (nl_of y l) -> l ∈ mlayers q -> agetitem q l [x; y] = agetitem p l [x; y]).
Proof.
  intros Hh H1 Hn%no_nets Hl Hsel. pose proof (mhist_inv _ _ _ _ _ _ Hh) as Hp. pose proof (pi_wf _ _ _ _ _ _ Hp) as Wp. pose proof (pinv_masp _ _ _ _ _ _ Hp) as Ap.
  destruct (sub_facts cs dir noe fi h p args Hp H1 Hn Hl false) as (q & g & E & Hq & Hs & He & Hr); [right; by apply (combos_exist cs dir noe fi h)|].
  pose proof (mhist_inv _ _ _ _ _ _ Hq) as Iq. pose proof (pi_wf _ _ _ _ _ _ Iq) as Wq. pose proof (pinv_masp _ _ _ _ _ _ Iq) as Aq.
  exists q, g. split; [done|]. split; [done|]. split; [by apply (sub_structure_of cs dir noe fi h)|]. split.
  - intros a b Ha Hb. pose proof (proj1 (He a) Ha) as [Pa Sa]. pose proof (proj1 (He b) Hb) as [Pb Sb].
    destruct (mexists_psl p a Wp Pa) as (La & _). destruct (mexists_psl p b Wp Pb) as (Lb & _).
    apply reads_alike_pair; [congruence..|]. apply pget_transport; try done; try congruence.
    + by rewrite (pi_coup _ _ _ _ _ _ Hp), (pi_coup _ _ _ _ _ _ Iq).
    + by rewrite (pi_noe _ _ _ _ _ _ Hp), (pi_noe _ _ _ _ _ _ Iq).
    + by rewrite (pi_coup _ _ _ _ _ _ Hp).
    + intros _ Hd. rewrite Ap. destruct a as [|x ls]; [done|]. destruct b as [|y ls']; [done|]. apply differ_at_0 in Hd as [_ <-].
      cbn [tail node_of]. apply Hr; [simpl in La; lia|done..].
  - intros l x y Hx Hy Hlay. apply He in Hx as [Px Sx]. apply He in Hy as [Py Sy]. apply mlayers_form in Hlay as [n En]; [|done].
    destruct (pA_lay q l n Wq En) as [_ Hf]. rewrite Aq in Hf. destruct (lkey_tuple _ l Hf) as [K1 K2]. rewrite nl_of_cons in *.
    destruct (mexists_psl p _ Wp Px) as (_ & _ & Mx & _). destruct (Mx ltac:(lia)) as (m & Em & _). cbn [tail] in Em. rewrite Ap, K1 in Em.
    rewrite !agetitem_lrd, En, Em. f_equal. rewrite <- K1. by apply Hr.
Qed.
(** [nolinks=True]: the same without links inside the layers; missing layers are skipped. *)
Theorem C69_subnet_nolinks cs dir noe fi h p args : mhist cs dir noe fi h p -> 1 <= length cs -> (forall m, CNet m ∉ cs) ->
  length args = S (length cs) ->
  exists q g, msubnet p args true = Ok q /\ mhist cs dir noe fi g q /\ sub_structure p args q /\
    (forall l x y, l ∈ mlayers q -> mexists q (nl_of x l) -> mexists q (nl_of y l) -> agetitem q l [x; y] = Ok 0%Z).
Proof.
  intros Hh H1 Hn%no_nets Hl. pose proof (mhist_inv _ _ _ _ _ _ Hh) as Hp.
  destruct (sub_facts cs dir noe fi h p args Hp H1 Hn Hl true) as (q & g & E & Hq & Hs & He & Hr); [by left|].
  pose proof (mhist_inv _ _ _ _ _ _ Hq) as Iq. pose proof (pi_wf _ _ _ _ _ _ Iq) as Wq. pose proof (pinv_masp _ _ _ _ _ _ Iq) as Aq.
  exists q, g. split; [done|]. split; [done|]. split; [by apply (sub_structure_of cs dir noe fi h)|].
  intros l x y Hlay Hx Hy. apply He in Hx as [Px Sx]. apply He in Hy as [Py Sy]. apply mlayers_form in Hlay as [n En]; [|done].
  destruct (pA_lay q l n Wq En) as [_ Hf]. rewrite Aq in Hf. destruct (lkey_tuple _ l Hf) as [K1 K2]. rewrite nl_of_cons in *.
  rewrite agetitem_lrd, En. f_equal. rewrite <- K1. by apply Hr.
Qed.
(** Selecting everything gives an equal network, if every node is on some layer. *)
Theorem C69_select_everything cs dir noe fi h p : mhist cs dir noe fi h p -> 1 <= length cs -> (forall m, CNet m ∉ cs) ->
  (fi = false -> forall x, mhas p 0 x -> exists a, mexists p a /\ a !! 0 = Some x) ->
  exists q, msubnet p (replicate (S (length cs)) None) false = Ok q /\ meq q p = Ok true.
Proof.
  intros Hh H1 Hn Hon. pose proof (mhist_inv _ _ _ _ _ _ Hh) as Hp. pose proof (pi_wf _ _ _ _ _ _ Hp) as Wp. pose proof (pinv_masp _ _ _ _ _ _ Hp) as Ap.
  set (args := replicate (S (length cs)) (None : option (list name))). assert (length args = S (length cs)) as Hl by apply replicate_length.
  assert (Hsome : forall k o, args !! k = Some o -> o = None) by (intros k o Ho; by apply lookup_replicate in Ho as [? _]).
  assert (Hnl : forall a, sel_nl args a) by (intros a k x o _ Ho; by rewrite (Hsome k o Ho)).
  assert (Hat : forall k x, psl p k x -> sel_at args k x).
  { intros k x (s & Hs & _). apply lookup_lt_Some in Hs. rewrite (pw_len p Wp), Ap, <- Hl in Hs. apply lookup_lt_is_Some_2 in Hs as [o Ho].
    exists o. split; [done|]. by rewrite (Hsome k o Ho). }
  destruct (sub_facts cs dir noe fi h p args Hp H1 (no_nets _ Hn) Hl false) as (q & g & E & Hq & Hs & He & Hr).
  { right. apply (combos_exist cs dir noe fi h); try done. intros k l x Ho. by apply Hsome in Ho. }
  exists q. split; [done|]. apply (C67_equality _ _ _ _ _ _ _ _ _ _ _ _ Hq Hh); [by apply no_nets_ok..|].
  eapply same_of; [exact Hp|exact (mhist_inv _ _ _ _ _ _ Hq)|done|..].
  - intros k x. rewrite Hs. unfold sub_name. split.
    + intros [(? & _)|(_ & -> & a & Ha & _ & <-)]; [done|]. destruct (mexists_psl p a Wp Ha) as (Hla & Ps & _). destruct a; [done|]. by apply Ps.
    + intros Hx. destruct (decide (fi = false /\ k = 0)) as [[Ef ->]|Hno].
      * right. split; [done|]. split; [done|]. destruct (Hon Ef x) as (a & Ha & Hx0); [by apply psl_mhas|]. exists a. split; [done|]. split; [done|].
        destruct a; [done|]. by injection Hx0 as ->.
      * left. split; [done|]. split; [by apply Hat|]. destruct fi; [by left|]. right. naive_solver.
  - intros a. rewrite He. unfold sub_nl. split; [by intros [? _]|done].
  - intros ls x y Hlen _ _ _. by apply Hr.
Qed.
(** Selecting a layer that does not exist raises KeyError (if something is selected in every aspect). *)
Lemma cart_with {A} (ss : list (list A)) : forall k s x, ss !! k = Some s -> x ∈ s -> (forall s, s ∈ ss -> s <> []) ->
  exists t, t ∈ cart ss /\ t !! k = Some x.
Proof.
  induction ss as [|s0 ss IH]; intros k s x Hk Hx Hne; [done|]. setoid_rewrite elem_of_cart. destruct k as [|k].
  - injection Hk as <-. assert (exists t, Forall2 (∈) t ss) as [t Ht].
    { clear IH Hx. induction ss as [|s1 ss IH]; [by exists []|]. destruct s1 as [|y s1]; [by destruct (Hne []); [right; left|]|].
      destruct IH as [t Ht]; [intros s Hs; apply Hne; apply elem_of_cons in Hs as [->|Hs]; [left|by do 2 right]|]. exists (y :: t). constructor; [left|done]. }
    exists (x :: t). split; [by constructor|done].
  - destruct (IH k s x Hk Hx) as (t & Ht & Htk); [intros s' Hs'; apply Hne; by right|]. apply elem_of_cart in Ht.
    destruct s0 as [|y s0]; [by destruct (Hne []); [left|]|]. exists (y :: t). split; [constructor; [left|done]|done].
Qed.
Theorem C69_missing_layer_raises cs dir noe fi h p args k l x : mhist cs dir noe fi h p -> 1 <= length cs -> (forall m, CNet m ∉ cs) ->
  length args = S (length cs) -> args !! S k = Some (Some l) -> x ∈ l -> ~ mhas p (S k) x ->
  (forall j o, args !! S j = Some o -> exists y, sel_name o y /\ (o = None -> mhas p (S j) y)) ->
  msubnet p args false = Err KeyError.
Proof.
  intros Hh H1 Hn%no_nets Hl Hk Hx Hno Hne. pose proof (mhist_inv _ _ _ _ _ _ Hh) as Hp.
  pose proof (sel_length cs p args Hl) as Hsl. set (sel := mselection p args) in *.
  assert (Hat : forall j, sel !! j = (fun o => match o with None => default [] (mslices p !! j) | Some l => remove_dups l end) <$> (args !! j)).
  { intros j. unfold sel, mselection. by rewrite list_lookup_imap. }
  assert (Htl : forall j, tail sel !! j = sel !! S j) by (intros j; by destruct sel).
  destruct (cart_with (tail sel) k (remove_dups l) x) as (ls & Hls & Hlk).
  - by rewrite Htl, Hat, Hk.
  - by apply elem_of_remove_dups.
  - intros s Hs ->. apply elem_of_list_lookup in Hs as [j Hj]. rewrite Htl, Hat in Hj. destruct (args !! S j) as [o|] eqn:Eo; [|done]. injection Hj as Hj.
    destruct (Hne j o Eo) as (y & Hy & Hy'). assert (y ∈ ([] : list name)) as Hin; [|by apply elem_of_nil in Hin]. rewrite <- Hj. destruct o as [l'|].
    + by apply elem_of_remove_dups.
    + apply slice_psl, psl_mhas. by apply Hy'.
  - destruct (pA p (lkey (length cs) ls)) as [m|] eqn:Em.
    + exfalso. apply Hno, psl_mhas. apply (combo_elem cs dir noe fi h p args Hp H1 Hl) in Hls as [Hlen _].
      apply (layer_psl _ _ _ _ _ _ Hp _ m k x Em). pose proof (nl_of_lkey (length cs) x ls Hlen H1) as E. rewrite nl_of_cons in E. by injection E as ->.
    + by apply (sub_missing cs dir noe fi h p args Hp H1 Hn Hl ls).
Qed.
Theorem C69_wrong_arguments cs dir noe fi h p args nolinks : mhist cs dir noe fi h p ->
  length args <> S (length cs) \/ (exists m, CNet m ∈ cs) -> msubnet p args nolinks = Err AssertionError.
Proof.
  intros Hp%mhist_inv Hm. unfold msubnet. rewrite (pinv_masp _ _ _ _ _ _ Hp). destruct (decide _) as [E|]; [|done]. destruct Hm as [|[m Hm]]; [done|].
  unfold like. rewrite (pi_coup _ _ _ _ _ _ Hp). assert (existsb is_cnet cs = true) as ->; [|done]. apply existsb_exists. exists (CNet m). split; [by apply elem_of_list_In|done].
Qed.
Definition ex69_args : list (option (list name)) := [Some [n1; n2; sc]; None; Some [n1]].
Example C69_example : mhist [CCat 2; COrd 3] true 7 false ex68.1 ex68.2 /\ sel_layers_exist ex68.2 ex69_args /\
  exists q, msubnet ex68.2 ex69_args false = Ok q /\ mnodes q = [n1; n2] /\ mget_layers q 1 = Ok [sa; sb] /\ mget_layers q 2 = Ok [n1] /\
    pgetitem q [n1; n2; sa; n1] = Ok 4%Z /\ pgetitem q [n2; n1; sa; n1] = Ok 5%Z /\ pgetitem q [n1; n1; sa; sb; n1; n1] = Ok 2%Z /\
    msubnet ex68.2 [None; None; Some [n1; sc]] false = Err KeyError /\ (exists q', msubnet ex68.2 [None; None; None] false = Ok q' /\ meq q' ex68.2 = Ok true).
Proof.
  split; [apply mcalls_hist|]. split.
  - intros [|[|k]] l x Hl Hx; try done. injection Hl as <-. apply elem_of_list_singleton in Hx as ->. apply psl_mhas. eexists. split; [by vm_compute|]. by apply (bool_decide_unpack _).
  - eexists. split_and!; try by vm_compute. eexists. split; by vm_compute.
Qed.
Print Assumptions C69_subnet.
Print Assumptions C69_subnet_nolinks.
Print Assumptions C69_select_everything.
Print Assumptions C69_missing_layer_raises.
Print Assumptions C69_wrong_arguments.
