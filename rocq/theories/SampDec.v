(** * The checking functions answer the questions of SampSpec *)
From stdpp Require Import prelude relations.
From Coq Require Import QArith.
From Verif Require Import Base Net NetSpec NetFacts NetHist NetIter NetEdges Build TransFacts Samp SampSpec SampFacts SampChk EsuFacts EsuRun.
Local Open Scope nat_scope.

Lemma sel_conn_ext n m A B A' B' : (forall a, sel_in n A B a <-> sel_in m A' B' a) -> (forall a b, sel_linked n A B a b <-> sel_linked m A' B' a b) ->
  sel_connected n A B -> sel_connected m A' B'.
Proof.
  intros H1 H2 [[a Ha] H]. split; [exists a; by apply H1|]. intros x y Hx%H1 Hy%H1. eapply rtc_subrel; [|by apply H].
  intros u v Huv. by apply H2.
Qed.
Lemma sel_full_ext n m A B A' B' : (forall a, a ∈ iter_node_layers m <-> a ∈ iter_node_layers n) -> (forall x, x ∈ A <-> x ∈ A') -> (forall x, x ∈ B <-> x ∈ B') ->
  sel_full n A B -> sel_full m A' B'.
Proof.
  intros Hm HA HB [H1 H2]. split.
  - intros x Hx%HA. destruct (H1 x Hx) as (l & Hl & Hin). exists l. split; [by apply HB|by apply Hm].
  - intros l Hl%HB. destruct (H2 l Hl) as (x & Hx & Hin). exists x. split; [by apply HA|by apply Hm].
Qed.
Lemma has_size_ext P Q z : (forall x, P x <-> Q x) -> has_size P z -> has_size Q z.
Proof. intros H (L & [Hn HL] & ->). exists L. split; [|done]. split; [done|]. intros x. by rewrite HL, H. Qed.
Lemma roles_fit_ext n m A A' roles sizes inters ty : (forall a, a ∈ iter_node_layers m <-> a ∈ iter_node_layers n) -> (forall x, x ∈ A <-> x ∈ A') ->
  roles_fit n A roles sizes inters ty -> roles_fit m A' roles sizes inters ty.
Proof.
  intros Hm HA [H1 H2]. split.
  - intros i l s Hi Hs. eapply has_size_ext; [|by apply (H1 i l s)]. intros x. cbn beta. by rewrite HA, Hm.
  - intros j c z Hj Hz. destruct (H2 j c z Hj Hz) as (k & Hk & Hk'). exists k. split; [|done].
    eapply has_size_ext; [|exact Hk]. intros x. cbn beta. rewrite HA. by setoid_rewrite Hm.
Qed.
Lemma acceptable_ext n m A B A' B' sizes inters ty : (forall a, a ∈ iter_node_layers m <-> a ∈ iter_node_layers n) -> A ≡ₚ A' -> B ≡ₚ B' ->
  (forall a, sel_in n A B a <-> sel_in m A' B' a) -> (forall a b, sel_linked n A B a b <-> sel_linked m A' B' a b) ->
  acceptable n A B sizes inters ty -> acceptable m A' B' sizes inters ty.
Proof.
  intros Hm HA HB H1 H2 (C & F & N & roles & Hr & Hf).
  split; [by eapply sel_conn_ext|]. split; [apply (sel_full_ext n m A B); [exact Hm|intros x; by rewrite HA|intros x; by rewrite HB|done]|].
  split; [by rewrite <- HB|]. exists roles. split; [by rewrite Hr|]. apply (roles_fit_ext n m A); [exact Hm| |done]. intros x. by rewrite HA.
Qed.
Lemma perm_sel_in n A B A' B' a : A ≡ₚ A' -> B ≡ₚ B' -> sel_in n A B a <-> sel_in n A' B' a.
Proof. intros HA HB. unfold sel_in. by setoid_rewrite HA; setoid_rewrite HB. Qed.
Lemma perm_sel_linked n A B A' B' a b : A ≡ₚ A' -> B ≡ₚ B' -> sel_linked n A B a b <-> sel_linked n A' B' a b.
Proof. intros HA HB. unfold sel_linked. by rewrite !(perm_sel_in n A B A' B'). Qed.
Lemma same_induced_sym n m A B : same_induced n m A B -> same_induced m n A B.
Proof. intros [H1 H2]. split; intros; symmetry; auto. Qed.

Lemma relaxed_decides str n rn rl : (forall a b, a ∈ iter_node_layers n -> b ∈ iter_node_layers n -> str a = str b -> a = b) ->
  decides n rn rl (relaxed_check str) (fun A B => sel_connected n A B /\ sel_full n A B).
Proof.
  intros Hinj. split; [|split].
  - intros m A B Hr Ha Hd Hm [Hs1 Hs2] _ _ _ _.
    destruct (relaxed_check_spec str m A B Hr Ha Hd) as (b & E & Hb); [intros x y Hx%Hm Hy%Hm; auto|]. exists b. split; [done|]. rewrite Hb.
    assert (forall a, a ∈ iter_node_layers n <-> a ∈ iter_node_layers m) as Hm' by (intros a; by rewrite Hm).
    split; intros [C F].
    + split; [apply (sel_conn_ext m n A B A B); [intros a; by rewrite Hs1|intros a a'; by rewrite Hs2|done]|by apply (sel_full_ext m n A B)].
    + split; [by apply (sel_conn_ext n m A B A B)|by apply (sel_full_ext n m A B)].
  - intros A B A' B' HA HB [C F]. split.
    + eapply sel_conn_ext; [..|exact C]; intros; [by apply perm_sel_in|by apply perm_sel_linked].
    + eapply sel_full_ext; [..|exact F]; intros; [done|by rewrite HA|by rewrite HB].
  - done.
Qed.
Lemma default_decides str n sz il a b ty : (forall x y, x ∈ iter_node_layers n -> y ∈ iter_node_layers n -> str x = str y -> x = y) ->
  ty <> OtherType -> Forall (fun s => 1 <= s)%Z sz -> b = Z.of_nat (length sz) -> 2 ^ length sz - length sz - 1 <= length il ->
  decides n a b (fun n x y => default_check str n x y sz il (Some a) (Some b) ty) (fun A B => acceptable n A B sz il ty).
Proof.
  intros Hinj Hty Hpos -> Hil. split; [|split].
  - intros m A B Hr Ha Hd Hm [Hs1 Hs2] _ _ HA HB. apply Nat2Z.inj in HB.
    destruct (default_check_spec str m A B sz il (Some a) (Some (Z.of_nat (length sz))) ty a (Z.of_nat (length sz)) Hr Ha Hd) as (b & E & Hb);
      [intros x y Hx%Hm Hy%Hm; auto|by destruct ty|done|by rewrite HB|done|by rewrite HB|by rewrite HB|].
    exists b. split; [done|]. rewrite Hb. split; apply acceptable_ext; try done; intros; symmetry; auto.
  - intros A B A' B' HA HB. apply acceptable_ext; try done; intros; [by apply perm_sel_in|by apply perm_sel_linked].
  - intros A B (C & F & _). done.
Qed.
Lemma calc_lengths_shape sz il rn rl : calc_lengths sz il = Ok (rn, rl) ->
  sz <> [] /\ length il = 2 ^ length sz - length sz - 1 /\ Forall (fun s => 1 <= s)%Z sz /\ rl = Z.of_nat (length sz).
Proof.
  unfold calc_lengths. destruct sz as [|s0 sz]; [done|]. intros E. destruct (decide _) as [D|]; [|done].
  destruct (forallb _ _) eqn:Ef; [|done]. destruct (all_nonneg il) as [[]|]; try done. cbn [rbind] in E.
  split; [done|]. split; [done|].
  split. { apply Forall_forall. intros z Hz%elem_of_list_In. rewrite forallb_forall in Ef. specialize (Ef _ Hz). by apply bool_decide_eq_true in Ef. }
  destruct il as [|o il].
  - injection E as <- <-. destruct sz as [|s1 sz]; [done|]. exfalso. revert D. simpl length. generalize (length sz). intros k.
    assert (S (S k) + 2 <= 2 ^ S (S k)); [|lia]. induction k as [|k IH]; [simpl; lia|]. rewrite (Nat.pow_succ_r' 2 (S (S k))). lia.
  - destruct (rfold _ _ _) as [s|]; [|done]. cbn [rbind] in E. by injection E as <- <-.
Qed.
Lemma int_to_list_spec k z il : 2 <= k -> length il = 2 ^ k - k - 1 -> last il = Some (Some z) -> (forall i, S i < length il -> il !! i = Some None) ->
  int_to_list k z = Ok il.
Proof.
  intros Hk Hl Hla Hi. unfold int_to_list. rewrite <- Hl. destruct (length il) as [|m] eqn:E; [by destruct il|].
  f_equal. apply list_eq. intros i. destruct (decide (i < m)).
  - rewrite lookup_app_l by (rewrite replicate_length; lia). rewrite lookup_replicate_2 by lia. symmetry. apply Hi. lia.
  - destruct (decide (i = m)) as [->|].
    + rewrite lookup_app_r by (rewrite replicate_length; lia). rewrite replicate_length, Nat.sub_diag. cbn. rewrite last_lookup, E in Hla. done.
    + rewrite !lookup_ge_None_2; [done|lia|]. rewrite app_length, replicate_length. simpl. lia.
Qed.
Lemma question_params str n sz il nn nlay ty custom rn rl P : (forall x y, x ∈ iter_node_layers n -> y ∈ iter_node_layers n -> str x = str y -> x = y) ->
  question n sz il nn nlay ty custom rn rl P ->
  exists chk, samp_params str sz il nn nlay ty custom = Ok (rn, rl, chk) /\ decides n rn rl chk P /\ (custom = None -> (1 <= rl)%Z).
Proof.
  intros Hinj HQ. destruct HQ as [a b ty Ha Hb|sz il rn rl Hil Hc|sz il a Hil Hne Hpos Hlen|sz il a nlay ty Hil Hty Hne Hpos Hlen|sz z il a ty Hty Hz Hlen Hpos Hl Hla Hi|sz il a b ty chk P Hd].
  - exists (relaxed_check str). split; [|split; [by apply relaxed_decides|done]]. unfold samp_params. cbn. by rewrite decide_True by lia.
  - destruct (calc_lengths_shape _ _ _ _ Hc) as (Hne & Hl & Hpos & ->). eexists. split; [|split; [apply default_decides; [done| | |done|]|]].
    + unfold samp_params. cbn. rewrite bool_decide_eq_false_2 by done. rewrite Hc. cbn. done.
    + done. + done. + by rewrite Hl. + intros _. destruct sz; [done|]. simpl. lia.
  - eexists. split; [|split; [apply default_decides; [done| | |done|]|]].
    + unfold samp_params. cbn. rewrite bool_decide_eq_false_2 by done. done.
    + done. + done. + done. + intros _. destruct sz; [done|]. simpl. lia.
  - eexists. split; [|split; [apply default_decides; [done| | |done|]|]].
    + unfold samp_params. cbn. rewrite bool_decide_eq_true_2 by done. done.
    + done. + done. + done. + intros _. destruct sz; [done|]. simpl. lia.
  - eexists. split; [|split; [apply default_decides; [done| | |done|]|]].
    + unfold samp_params. cbn. rewrite decide_True by done. rewrite (int_to_list_spec _ _ il) by done. cbn. done.
    + done. + done. + by rewrite Hl. + intros _. lia.
  - exists chk. split; [|split; [done|done]]. unfold samp_params. by rewrite orb_true_r.
Qed.

Theorem dumb_ok str n sz il nn nlay ty custom rn rl P : reachable n -> aspects n = 1 -> directed n = false ->
  (forall x y, x ∈ iter_node_layers n -> y ∈ iter_node_layers n -> str x = str y -> x = y) ->
  question n sz il nn nlay ty custom rn rl P -> (1 <= rn)%Z -> (1 <= rl)%Z ->
  exists rs, dumb str n sz il nn nlay ty custom = Ok rs /\ only_wanted rn rl P rs /\ all_wanted rn rl P rs.
Proof.
  intros Hr Ha Hd Hinj HQ Hrn Hrl. destruct (question_params str _ _ _ _ _ _ _ _ _ _ Hinj HQ) as (chk & E & Hdec & _).
  unfold dumb. rewrite E. cbn [rbind fst snd]. by apply dumb_run_ok.
Qed.
