(** * Properties C43-C45: sampling of multilayer subgraphs *)
From stdpp Require Import prelude relations.
From Coq Require Import QArith.
From Verif Require Import Base Net NetSpec NetFacts NetHist NetIter NetEdges Build TransFacts PropsTrans Samp SampSpec SampFacts SampChk EsuFacts EsuRun SampDec.
Local Open Scope nat_scope.

(** C43: for finite nonempty sets [F], given their sizes and the sizes of the
    intersections of every two, three, ... of them, the computed number of nodes is
    the size of the union and the computed number of layers the number of sets. *)
Theorem C43_union_size (F : list (list name)) sizes inters nn : F <> [] ->
  Forall2 (fun S z => has_size (fun x => x ∈ S) z) F sizes -> Forall (fun S => S <> []) F ->
  Forall2 (fun c o => exists z, o = Some z /\ has_size (fun x => forall S, S ∈ c -> x ∈ S) z) (role_sets F) inters ->
  has_size (fun x => exists S, S ∈ F /\ x ∈ S) nn ->
  calc_lengths sizes inters = Ok (nn, Z.of_nat (length F)).
Proof. apply calc_lengths_spec. Qed.
(** What the "sets of two or more of them" in C43 are: every selection of at
    least two positions, once. *)
Theorem C43_all_combinations (k : nat) : lists_exactly (role_sets (seq 0 k)) (fun c => sublist c (seq 0 k) /\ 2 <= length c) /\
  forall {A} (f : nat -> A), role_sets (f <$> seq 0 k) = (fun c : list nat => f <$> c) <$> role_sets (seq 0 k).
Proof. split; [split; [apply NoDup_role_sets, NoDup_seq|]; intros c; apply elem_of_role_sets|]. intros A f. apply role_sets_fmap. Qed.
(** Malformed requirements are rejected. *)
Theorem C43_rejects sizes inters :
  sizes = [] \/ length inters <> 2 ^ length sizes - length sizes - 1 \/ (exists s, s ∈ sizes /\ (s < 1)%Z) \/
    (exists o, o ∈ inters /\ forall z, o = Some z -> (z < 0)%Z) ->
  calc_lengths sizes inters = Err AssertionError \/ (None ∈ inters /\ calc_lengths sizes inters = Err TypeError).
Proof.
  intros H. unfold calc_lengths. destruct sizes as [|s0 sizes]; [by left|].
  destruct (decide _) as [D|]; [|by left]. destruct (forallb _ _) eqn:Ef; [|by left].
  assert (exists o, o ∈ inters /\ forall z, o = Some z -> (z < 0)%Z) as (o & Ho & Hz).
  { destruct H as [?|[?|[(s & Hs & Hlt)|H]]]; [done|done| |done]. rewrite forallb_forall in Ef. apply elem_of_list_In, Ef, bool_decide_eq_true in Hs. lia. }
  assert (all_nonneg inters = Ok false \/ (None ∈ inters /\ all_nonneg inters = Err TypeError)) as [->|[Hn ->]]; [|by left|by right].
  clear -Ho Hz. revert Ho. induction inters as [|[j|] l IH]; intros Ho; [by apply elem_of_nil in Ho| |right; split; [by left|done]]. cbn [all_nonneg].
  destruct (decide (0 <= j)%Z); [|by left]. apply elem_of_cons in Ho as [->|Ho]; [specialize (Hz j eq_refl); lia|].
  destruct (IH Ho) as [->|[? ->]]; [by left|right; split; [by right|done]].
Qed.
Example C43_example : calc_lengths [3; 2; 2]%Z [Some 1; Some 1; Some 1; Some 1]%Z = Ok (5, 3)%Z /\
  calc_lengths [3]%Z [] = Ok (3, 1)%Z /\ calc_lengths [1; 2]%Z [None] = Err TypeError /\ calc_lengths [0]%Z [] = Err AssertionError.
Proof. by vm_compute. Qed.
(** The hypotheses of [C43_union_size] on three concrete sets. *)
Example C43_example_sets : let F := [[NInt 1; NInt 2; NInt 3]; [NInt 3; NInt 4]; [NInt 3; NInt 5]] in
  F <> [] /\ Forall2 (fun S z => has_size (fun x => x ∈ S) z) F [3; 2; 2]%Z /\ Forall (fun S => S <> []) F /\
  Forall2 (fun c o => exists z, o = Some z /\ has_size (fun x => forall S, S ∈ c -> x ∈ S) z) (role_sets F) [Some 1; Some 1; Some 1; Some 1]%Z /\
  has_size (fun x => exists S, S ∈ F /\ x ∈ S) 5.
Proof.
  intros F. split; [done|].
  assert (forall S : list name, NoDup S -> has_size (fun x => x ∈ S) (Z.of_nat (length S))) as HS. { intros S HS. exists S. split; [|done]. by split. }
  split. { repeat constructor; (match goal with |- has_size (fun x => x ∈ ?S) _ => apply (HS S) end); apply (bool_decide_unpack _); by vm_compute. }
  split; [repeat constructor; done|]. split.
  - assert (forall a b c : list name, NInt 3 ∈ a -> NInt 3 ∈ b -> (c = [] \/ NInt 3 ∈ c) -> (forall x, x ∈ a -> x ∈ b -> x = NInt 3) ->
      exists z, Some 1%Z = Some z /\ has_size (fun x => forall S, S ∈ a :: b :: (if decide (c = []) then [] else [c]) -> x ∈ S) z) as H2.
    { intros a b c Ha Hb Hc Hab. exists 1%Z. split; [done|]. exists [NInt 3]. split; [|done]. split; [apply NoDup_singleton|]. intros x. rewrite elem_of_list_singleton. split.
      - intros -> S [->|[->|HS']%elem_of_cons]%elem_of_cons; [done|done|]. destruct (decide (c = [])); [by apply elem_of_nil in HS'|]. apply elem_of_list_singleton in HS' as ->. naive_solver.
      - intros H. apply Hab; apply H; [left|right; left]. }
    unfold F. repeat apply Forall2_cons_2; [..|apply Forall2_nil_2].
    + apply (H2 _ _ []); set_solver.
    + apply (H2 _ _ []); set_solver.
    + apply (H2 _ _ []); set_solver.
    + apply (H2 _ _ [NInt 3; NInt 5]); set_solver.
  - exists (NInt <$> [1; 2; 3; 4; 5]%Z). split; [|done]. split; [apply (bool_decide_unpack _); by vm_compute|]. intros x. split.
    + intros Hx. change (x ∈ [NInt 1; NInt 2; NInt 3; NInt 4; NInt 5]) in Hx. rewrite !elem_of_cons in Hx.
      destruct Hx as [->|[->|[->|[->|[->|Hx]]]]]; [exists [NInt 1; NInt 2; NInt 3]; set_solver|exists [NInt 1; NInt 2; NInt 3]; set_solver|exists [NInt 1; NInt 2; NInt 3]; set_solver|
        exists [NInt 3; NInt 4]; set_solver|exists [NInt 3; NInt 5]; set_solver|by apply elem_of_nil in Hx].
    + intros (S & HS' & Hx). change (x ∈ [NInt 1; NInt 2; NInt 3; NInt 4; NInt 5]). unfold F in HS'. rewrite !elem_of_cons in HS'.
      destruct HS' as [->|[->|[->|HS']]]; [set_solver..|by apply elem_of_nil in HS'].
Qed.

(** C44: the default check accepts a selection of the required numbers of nodes and
    layers exactly if it is acceptable. *)
Theorem C44_default_check str n A B sizes inters nnodes nlayers ty rn rl : reachable n -> aspects n = 1 -> directed n = false ->
  (forall a b, a ∈ iter_node_layers n -> b ∈ iter_node_layers n -> str a = str b -> a = b) ->
  req_lengths sizes inters nnodes nlayers ty = Ok (rn, rl) -> Z.of_nat (length A) = rn -> Z.of_nat (length B) = rl ->
  Forall (fun s => 1 <= s)%Z sizes -> length B <= length sizes -> 2 ^ length B - length B - 1 <= length inters ->
  exists b, default_check str n A B sizes inters nnodes nlayers ty = Ok b /\ (b = true <-> acceptable n A B sizes inters ty).
Proof. apply default_check_spec. Qed.
Theorem C44_relaxed_check str n A B : reachable n -> aspects n = 1 -> directed n = false ->
  (forall a b, a ∈ iter_node_layers n -> b ∈ iter_node_layers n -> str a = str b -> a = b) ->
  exists b, relaxed_check str n A B = Ok b /\ (b = true <-> sel_connected n A B /\ sel_full n A B).
Proof. apply relaxed_check_spec. Qed.
(** The answers do not depend on the order of the lists, the storage order of the
    network, or anything outside the selection. *)
Theorem C44_order_independent str n m A B A' B' sizes inters nnodes nlayers ty rn rl : reachable n -> aspects n = 1 -> directed n = false ->
  reachable m -> aspects m = 1 -> directed m = false -> (forall a, a ∈ iter_node_layers m <-> a ∈ iter_node_layers n) -> same_induced n m A B ->
  (forall a b, a ∈ iter_node_layers n -> b ∈ iter_node_layers n -> str a = str b -> a = b) -> A ≡ₚ A' -> B ≡ₚ B' ->
  relaxed_check str m A' B' = relaxed_check str n A B /\
  (req_lengths sizes inters nnodes nlayers ty = Ok (rn, rl) -> Z.of_nat (length A) = rn -> Z.of_nat (length B) = rl ->
   Forall (fun s => 1 <= s)%Z sizes -> length B <= length sizes -> 2 ^ length B - length B - 1 <= length inters ->
   default_check str m A' B' sizes inters nnodes nlayers ty = default_check str n A B sizes inters nnodes nlayers ty).
Proof.
  intros Hr Ha Hd Hr' Ha' Hd' Hm [Hs1 Hs2] Hinj HA HB.
  assert (forall a b, a ∈ iter_node_layers m -> b ∈ iter_node_layers m -> str a = str b -> a = b) as Hinj' by (intros x y Hx%Hm Hy%Hm; auto).
  assert (forall a, a ∈ iter_node_layers n <-> a ∈ iter_node_layers m) as Hm' by (intros a; by rewrite Hm).
  assert (forall x, x ∈ A <-> x ∈ A') as HA1 by (intros x; by rewrite HA). assert (forall x, x ∈ B <-> x ∈ B') as HB1 by (intros x; by rewrite HB).
  assert (forall a, sel_in n A B a <-> sel_in m A' B' a) as S1. { intros a. rewrite Hs1. by apply perm_sel_in. }
  assert (forall a b, sel_linked n A B a b <-> sel_linked m A' B' a b) as S2. { intros a b. rewrite Hs2. by apply perm_sel_linked. }
  assert (forall (b b' : bool) P P', (b = true <-> P) -> (b' = true <-> P') -> (P <-> P') -> b = b') as Heq.
  { intros [] [] P P' H1 H2 H3; [done| | |done]; exfalso; [assert (P') as HP by (by apply H3, H1); by apply H2 in HP|assert P as HP by (by apply H3, H2); by apply H1 in HP]. }
  split.
  - destruct (relaxed_check_spec str n A B Hr Ha Hd Hinj) as (b & -> & Hb). destruct (relaxed_check_spec str m A' B' Hr' Ha' Hd' Hinj') as (b' & -> & Hb').
    f_equal. refine (Heq _ _ _ _ Hb' Hb _). split; intros [C F]; split.
    + apply (sel_conn_ext m n A' B'); [intros a; by rewrite S1|intros a a'; by rewrite S2|done].
    + apply (sel_full_ext m n A' B'); [done|intros x; by rewrite HA1|intros x; by rewrite HB1|done].
    + by apply (sel_conn_ext n m A B).
    + by apply (sel_full_ext n m A B).
  - intros Hq Hl1 Hl2 Hpos Hl3 Hl4.
    destruct (default_check_spec str n A B sizes inters nnodes nlayers ty rn rl Hr Ha Hd Hinj Hq Hl1 Hl2 Hpos Hl3 Hl4) as (b & -> & Hb).
    destruct (default_check_spec str m A' B' sizes inters nnodes nlayers ty rn rl Hr' Ha' Hd' Hinj' Hq) as (b' & -> & Hb'); [by rewrite <- HA|by rewrite <- HB|done|by rewrite <- HB|by rewrite <- HB|].
    f_equal. refine (Heq _ _ _ _ Hb' Hb _). split; apply acceptable_ext; done.
Qed.

(** C45: the exhaustive enumeration reports the wanted selections, each exactly once. *)
Theorem C45_dumb_exactly_once str n sz il nn nlay ty custom rn rl P : reachable n -> aspects n = 1 -> directed n = false ->
  (forall x y, x ∈ iter_node_layers n -> y ∈ iter_node_layers n -> str x = str y -> x = y) ->
  question n sz il nn nlay ty custom rn rl P -> (1 <= rn)%Z -> (1 <= rl)%Z ->
  exists rs, dumb str n sz il nn nlay ty custom = Ok rs /\ only_wanted rn rl P rs /\ all_wanted rn rl P rs.
Proof. apply dumb_ok. Qed.

Lemma works_on_ok copy n m : reachable n -> aspects n = 1 -> directed n = false ->
  (copy = true -> (forall a, ~ linked n a a) /\ forall a b, linked n a b -> ~ reads n a b 0) -> works_on copy n m ->
  reachable m /\ aspects m = 1 /\ directed m = false /\ (forall a, a ∈ iter_node_layers m <-> a ∈ iter_node_layers n) /\
  (forall a b, linked m a b <-> linked n a b) /\ (copy = true -> noEdge m = 0%Z /\ forall a, ~ linked m a a).
Proof.
  intros Hr Ha Hd Hc Hw. destruct copy; [|cbn in Hw; subst m; done].
  destruct Hw as (m0 & E & Ho). destruct (Hc eq_refl) as [Hns Hnz].
  destruct (esu_copy_ok n Hr Ha Hd Hnz) as (m1 & E' & Hr1 & Ha1 & Hd1 & Hne1 & Hn1 & Hl1). rewrite E in E'. injection E' as <-.
  pose proof (reachable_good _ Hr1) as Hg1.
  assert (reachable m) as Hrm. { destruct Hr1 as (asp & ne & dr & fi & h & Hh). exists asp, ne, dr, fi, h. by eapply hist_reorder. }
  pose proof (reachable_good _ Hrm) as Hgm.
  assert (forall a b, linked m a b <-> linked n a b) as Hlm.
  { intros a b. rewrite <- Hl1, !linked_lnk by done. by rewrite (reorder_lnk m0 m). }
  split; [done|]. pose proof Ho as (O1 & O2 & O3 & _). split; [congruence|]. split; [congruence|].
  split. { intros a. rewrite <- Hn1. apply (reorder_present m0 m); [done|apply Hg1]. }
  split; [done|]. intros _. split; [congruence|]. intros a Hl. by apply (Hns a), Hlm.
Qed.

(** Every finished ESU run, whatever the order in which the sets are popped and
    whatever the random numbers, reports wanted selections only and none twice; if
    every random number is below the given probability, it reports all of them. *)
Theorem C45_esu_run copy str n m sz il nn nlay ty custom rn rl P p : reachable n -> aspects n = 1 -> directed n = false ->
  (forall x y, x ∈ iter_node_layers n -> y ∈ iter_node_layers n -> str x = str y -> x = y) ->
  question n sz il nn nlay ty custom rn rl P -> (1 <= rn)%Z -> (1 <= rl)%Z ->
  (copy = true -> (forall a, ~ linked n a a) /\ forall a b, linked n a b -> ~ reads n a b 0) ->
  (forall ps, p = Some ps -> (rn + rl - 1 <= Z.of_nat (length ps))%Z) -> works_on copy n m ->
  exists chk, samp_params str sz il nn nlay ty custom = Ok (rn, rl, chk) /\
  (forall orc, esu_run copy m rn rl chk p orc = Err OutOfFuel \/ exists rs, esu_run copy m rn rl chk p orc = Ok rs /\
     only_wanted rn rl P rs /\ (draws_pass p orc -> all_wanted rn rl P rs)) /\
  (forall q, exists orc rs, (forall iq, iq ∈ orc -> iq.2 = q) /\ esu_run copy m rn rl chk p orc = Ok rs).
Proof.
  intros Hr Ha Hd Hinj HQ Hrn Hrl Hc Hp Hw. destruct (question_params str _ _ _ _ _ _ _ _ _ _ Hinj HQ) as (chk & E & Hdec & _).
  exists chk. split; [done|]. destruct (works_on_ok copy n m Hr Ha Hd Hc Hw) as (H1 & H2 & H3 & H4 & H5 & H6).
  by apply (esu_run_ok n m copy rn rl chk P p).
Qed.
(** The same for the whole function [sample_multilayer_subgraphs_esu]. *)
Theorem C45_esu str n sz il nn nlay p ty copy custom rn rl P : reachable n -> aspects n = 1 -> directed n = false ->
  (forall x y, x ∈ iter_node_layers n -> y ∈ iter_node_layers n -> str x = str y -> x = y) ->
  question n sz il nn nlay ty custom rn rl P -> (1 <= rn)%Z -> (1 <= rl)%Z ->
  (copy = true -> (forall a, ~ linked n a a) /\ forall a b, linked n a b -> ~ reads n a b 0) ->
  (forall ps, p = Some ps -> (rn + rl - 1 <= Z.of_nat (length ps))%Z) ->
  (forall orc, esu str n sz il nn nlay p ty copy custom orc = Err OutOfFuel \/ exists rs, esu str n sz il nn nlay p ty copy custom orc = Ok rs /\
     only_wanted rn rl P rs /\ (draws_pass p orc -> all_wanted rn rl P rs)) /\
  (forall q, exists orc rs, (forall iq, iq ∈ orc -> iq.2 = q) /\ esu str n sz il nn nlay p ty copy custom orc = Ok rs).
Proof.
  intros Hr Ha Hd Hinj HQ Hrn Hrl Hc Hp. assert (exists m, works_on copy n m /\ (if copy then esu_copy n else Ok n) = Ok m) as (m & Hw & Em).
  { destruct copy; [|by exists n]. destruct (Hc eq_refl) as [_ Hnz]. destruct (esu_copy_ok n Hr Ha Hd Hnz) as (m & E & Hm & _). exists m. split; [|done].
    exists m. split; [done|]. repeat split; try done; apply Forall_Forall2_diag, Forall_forall; done. }
  destruct (C45_esu_run copy str n m sz il nn nlay ty custom rn rl P p Hr Ha Hd Hinj HQ Hrn Hrl Hc Hp Hw) as (chk & E & H).
  assert (forall orc, esu str n sz il nn nlay p ty copy custom orc = esu_run copy m rn rl chk p orc) as Heq.
  { intros orc. unfold esu. rewrite Em. cbn [rbind]. by rewrite E. }
  split; [intros orc; rewrite Heq; apply H|]. intros q. destruct H as [_ H]. destruct (H q) as (orc & rs & Hq & Hrs). exists orc, rs. by rewrite Heq.
Qed.
(** With all probabilities passed, ESU and the exhaustive enumeration report the
    same selections. *)
Theorem C45_same_as_dumb str n sz il nn nlay p ty copy custom rn rl P orc rs ds : reachable n -> aspects n = 1 -> directed n = false ->
  (forall x y, x ∈ iter_node_layers n -> y ∈ iter_node_layers n -> str x = str y -> x = y) ->
  question n sz il nn nlay ty custom rn rl P -> (1 <= rn)%Z -> (1 <= rl)%Z ->
  (copy = true -> (forall a, ~ linked n a a) /\ forall a b, linked n a b -> ~ reads n a b 0) ->
  (forall ps, p = Some ps -> (rn + rl - 1 <= Z.of_nat (length ps))%Z) -> draws_pass p orc ->
  esu str n sz il nn nlay p ty copy custom orc = Ok rs -> dumb str n sz il nn nlay ty custom = Ok ds ->
  (forall r, r ∈ rs -> exists d, d ∈ ds /\ same_sel d r) /\ (forall d, d ∈ ds -> exists r, r ∈ rs /\ same_sel r d).
Proof.
  intros Hr Ha Hd Hinj HQ Hrn Hrl Hc Hp Hpass Ers Eds.
  destruct (C45_esu str n sz il nn nlay p ty copy custom rn rl P Hr Ha Hd Hinj HQ Hrn Hrl Hc Hp) as [H _].
  destruct (H orc) as [?|(rs' & E & [Ho _] & Hall)]; [congruence|]. rewrite Ers in E. injection E as <-.
  destruct (C45_dumb_exactly_once str n sz il nn nlay ty custom rn rl P Hr Ha Hd Hinj HQ Hrn Hrl) as (ds' & E & [Do _] & Dall). rewrite Eds in E. injection E as <-.
  split; [intros r Hr'; by apply Dall, Ho|intros d Hd'; by apply Hall, Do].
Qed.

(** ** Concrete cases *)
Definition x1 := NInt 1. Definition x2 := NInt 2. Definition x3 := NInt 3. Definition la := NStr "a". Definition lb := NStr "b".
(** Two layers; 1-2-3 in a, 2-3 in b, one link between the layers. *)
Definition s_n : mlnet := run (new_net 1 0 false false)
  [OpNodeSet [x1; la] [x2; la] 1; OpNodeSet [x2; la] [x3; la] 1; OpNodeSet [x2; lb] [x3; lb] 2; OpNodeSet [x2; la] [x2; lb] 1; OpAddNode x1 (Some (LBare lb))].
Lemma run_hist asp noe dir fi h g : forall n, hist asp noe dir fi g n -> hist asp noe dir fi (g ++ h) (run n h).
Proof.
  revert g. induction h as [|o h IH]; intros g n Hh; [by rewrite app_nil_r|]. rewrite cons_middle, app_assoc. apply (IH (g ++ [o])). by constructor.
Qed.
Lemma run_reachable asp noe dir fi h : reachable (run (new_net asp noe dir fi) h).
Proof. exists asp, noe, dir, fi, h. apply (run_hist asp noe dir fi h []). constructor. Qed.
Lemma join_ok (L : list nl) : NoDup (join <$> L) -> forall x y, x ∈ L -> y ∈ L -> join x = join y -> x = y.
Proof.
  intros Hn x y [i Hi]%elem_of_list_lookup [j Hj]%elem_of_list_lookup E.
  assert (i = j) as ->; [|congruence]. eapply NoDup_lookup; [exact Hn|by rewrite list_lookup_fmap, Hi|rewrite list_lookup_fmap, Hj; cbn; by rewrite E].
Qed.
Example C44_example : reachable s_n /\ aspects s_n = 1 /\ directed s_n = false /\
  (forall x y, x ∈ iter_node_layers s_n -> y ∈ iter_node_layers s_n -> join x = join y -> x = y) /\
  relaxed_check join s_n [x1; x2] [la] = Ok true /\ relaxed_check join s_n [x1; x3] [la] = Ok false /\ relaxed_check join s_n [x2; x3] [lb; la] = Ok true /\
  default_check join s_n [x3; x2] [lb; la] [2; 2]%Z [Some 2%Z] (Some 2%Z) (Some 2%Z) Strict = Ok true /\
  default_check join s_n [x1; x2; x3] [la; lb] [3; 3]%Z [Some 3%Z] None None Strict = Ok false /\
  default_check join s_n [x2; x3] [la; lb] [2; 2]%Z [Some 1%Z] (Some 2%Z) (Some 2%Z) LessOrEqual = Ok false.
Proof. split; [apply run_reachable|]. split; [done|]. split; [done|]. split; [apply join_ok; apply (bool_decide_unpack _); by vm_compute|]. by vm_compute. Qed.
Definition s_orc : list (nat * Q) := replicate 40 (0, 1 # 2).
Example C45_example :
  question s_n (Some [2; 2]%Z) (Some (IList [Some 2%Z])) None None Strict None 2 2 (fun A B => acceptable s_n A B [2; 2]%Z [Some 2%Z] Strict) /\
  question s_n None None (Some 2%Z) (Some 1%Z) Strict None 2 1 (fun A B => sel_connected s_n A B /\ sel_full s_n A B) /\
  question s_n (Some [1; 1]%Z) (Some (IInt 1)) (Some 1%Z) None Strict None 1 2 (fun A B => acceptable s_n A B [1; 1]%Z [Some 1%Z] Strict) /\
  dumb join s_n (Some [2; 2]%Z) (Some (IList [Some 2%Z])) None None Strict None = Ok [([x2; x3], [la; lb])] /\
  esu join s_n (Some [2; 2]%Z) (Some (IList [Some 2%Z])) None None None Strict true None s_orc = Ok [([x2; x3], [la; lb])] /\
  dumb join s_n None None (Some 2%Z) (Some 1%Z) Strict None = Ok [([x1; x2], [la]); ([x2; x3], [la]); ([x2; x3], [lb])] /\
  esu join s_n None None (Some 2%Z) (Some 1%Z) None Strict false None s_orc = Ok [([x1; x2], [la]); ([x2; x3], [la]); ([x2; x3], [lb])] /\
  esu join s_n None None (Some 2%Z) (Some 1%Z) (Some [1 # 2; 1 # 2]) Strict true None ((0, 1 # 3) :: s_orc) = Ok [].
Proof.
  split; [apply q_strict; [by apply (bool_decide_unpack _); vm_compute|done]|]. split; [by apply q_relaxed|].
  split. { apply q_common; [done|done|simpl; lia|repeat constructor; done|done|done|]. intros i Hi. simpl in Hi. lia. }
  by vm_compute.
Qed.
(** The hypotheses on the network that make the copy faithful. *)
Example C45_example_copy : (forall a, ~ linked s_n a a) /\ forall a b, linked s_n a b -> ~ reads s_n a b 0.
Proof.
  pose proof (reachable_good _ (run_reachable 1 0 false false _ : reachable s_n)) as Hg.
  assert (forall a b w, lnk s_n a b = Some w -> a <> b /\ w <> 0%Z) as H.
  { assert (forall a b w, (a, b, w) ∈ (nett s_n ≫= fun kv => (fun bw => (kv.1, bw.1, bw.2)) <$> kv.2) -> a <> b /\ w <> 0%Z) as H.
    { intros a b w Hin. set (L := nett s_n ≫= _) in Hin. assert (Forall (fun q : nl * nl * Z => q.1.1 <> q.1.2 /\ q.2 <> 0%Z) L) as HF by (apply (bool_decide_unpack _); by vm_compute).
      rewrite Forall_forall in HF. apply (HF _ Hin). }
    assert (forall V (d : dict nl V) k v, dget d k = Some v -> (k, v) ∈ d) as Hin.
    { intros V d k v. induction d as [|[k' v'] d IH]; [done|]. cbn. destruct (decide _); [intros [= ->]; subst; left|right; by apply IH]. }
    intros a b w Hl. apply H. apply elem_of_list_bind. unfold lnk, adj in Hl. destruct (dget (nett s_n) a) as [row|] eqn:Er; [|done].
    exists (a, row). split; [|by apply Hin]. apply elem_of_list_fmap. exists (b, w). split; [done|]. by apply Hin. }
  split.
  - intros a Hl. apply linked_lnk in Hl as [w Hl]; [|exact Hg]. destruct (H a a w Hl) as [Hd _]. apply Hd. reflexivity.
  - intros a b (La & Lb & w & Hw & Hne) H0. apply reads_rd in H0; [|exact La|exact Lb]. apply reads_rd in Hw; [|exact La|exact Lb]. apply Hne. rewrite Hw, <- H0. reflexivity.
Qed.

(** ** Where the code falls short *)
(** With a self-link the default [copy_network=True] makes ESU raise KeyError. *)
Definition s_loop : mlnet := run (new_net 1 0 false false) [OpNodeSet [x1; la] [x2; la] 1; OpNodeSet [x1; la] [x1; la] 1].
Theorem C45_self_link_refuted : exists n, reachable n /\ aspects n = 1 /\ directed n = false /\
  dumb join n None None (Some 2%Z) (Some 1%Z) Strict None = Ok [([x1; x2], [la])] /\
  esu join n None None (Some 2%Z) (Some 1%Z) None Strict false None s_orc = Ok [([x1; x2], [la])] /\
  esu join n None None (Some 2%Z) (Some 1%Z) None Strict true None s_orc = Err KeyError.
Proof. exists s_loop. split; [apply run_reachable|]. by vm_compute. Qed.
(** When the no-edge value is not 0, links of weight 0 are lost in the copy: the
    selections that need them are not reported. *)
Definition s_zero : mlnet := run (new_net 1 (-1) false false) [OpNodeSet [x1; la] [x2; la] 0].
Theorem C45_zero_weight_refuted : exists n, reachable n /\ aspects n = 1 /\ directed n = false /\
  dumb join n None None (Some 2%Z) (Some 1%Z) Strict None = Ok [([x1; x2], [la])] /\
  esu join n None None (Some 2%Z) (Some 1%Z) None Strict false None s_orc = Ok [([x1; x2], [la])] /\
  esu join n None None (Some 2%Z) (Some 1%Z) None Strict true None s_orc = Ok [].
Proof. exists s_zero. split; [apply run_reachable|]. by vm_compute. Qed.
Print Assumptions C43_union_size.
Print Assumptions C43_all_combinations.
Print Assumptions C43_rejects.
Print Assumptions C44_default_check.
Print Assumptions C44_relaxed_check.
Print Assumptions C44_order_independent.
Print Assumptions C45_dumb_exactly_once.
Print Assumptions C45_esu_run.
Print Assumptions C45_esu.
Print Assumptions C45_same_as_dumb.
Print Assumptions C45_self_link_refuted.
Print Assumptions C45_zero_weight_refuted.
