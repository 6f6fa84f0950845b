(** * Lemmas on layer combinations and set partitions *)
From stdpp Require Import prelude.
From Verif Require Import Base Net Supra Samp SampFacts Graphlet GraphletSpec GraphletFacts.
Local Open Scope nat_scope.

Lemma perm_elem {V} (s t : list V) x : s ≡ₚ t -> x ∈ s <-> x ∈ t.
Proof. intros ->. done. Qed.
Lemma layer_combinations_ok {V} `{EqDecision V} (layers : list V) : NoDup layers ->
  (forall c, c ∈ layer_combinations layers -> NoDup c /\ c <> [] /\ forall x, x ∈ c -> x ∈ layers) /\
  (forall s, NoDup s -> s <> [] -> (forall x, x ∈ s -> x ∈ layers) -> exists c, c ∈ layer_combinations layers /\ c ≡ₚ s) /\
  NoDup (layer_combinations layers) /\ (forall c d, c ∈ layer_combinations layers -> d ∈ layer_combinations layers -> c ≡ₚ d -> c = d).
Proof.
  intros Hnd. unfold layer_combinations.
  assert (forall c, c ∈ seq 1 (length layers) ≫= (fun k => combs k layers) <-> sublist c layers /\ c <> []) as Hel.
  { intros c. rewrite elem_of_list_bind. split.
    - intros (k & [Hc Hk]%elem_of_combs & Hs). split; [done|]. intros ->. apply elem_of_seq in Hs. cbn in Hk. lia.
    - intros [Hc Hne]. exists (length c). split; [by apply elem_of_combs|]. apply elem_of_seq. apply sublist_length in Hc. destruct c; [done|]. cbn in *. lia. }
  split_and!.
  - intros c [Hc Hne]%Hel. split; [by eapply sublist_NoDup'|]. split; [done|]. intros x Hx. by apply (sublist_elem c layers).
  - intros s Hs Hne Hin. destruct (sublist_of layers s Hnd Hs Hin) as (d & Hd & Hp). exists d. split; [|done]. apply Hel. apply elem_of_combs in Hd as [Hd _]. split; [done|].
    intros ->. apply Permutation_nil_l in Hp. done.
  - apply NoDup_bind.
    + apply NoDup_seq.
    + intros k _. by apply NoDup_combs.
    + intros k1 k2 c _ _ [_ H1]%elem_of_combs [_ H2]%elem_of_combs. congruence.
  - intros c d [Hc _]%Hel [Hd _]%Hel Hp. apply (sublist_ext layers); [done..|]. intros x. by apply perm_elem.
Qed.

Section parts.
Context {V : Type} `{EqDecision V}.
Lemma sdiff_perm (rest c : list V) : NoDup rest -> sublist c rest -> c ++ sdiff rest c ≡ₚ rest.
Proof.
  intros Hn Hc. assert (NoDup c) by (by eapply sublist_NoDup'). apply NoDup_Permutation; [|done|].
  - apply NoDup_app. split; [done|]. split; [|by apply NoDup_filter]. intros x Hx [_ H']%elem_of_sdiff. done.
  - intros x. rewrite elem_of_app, elem_of_sdiff. split.
    + intros [Hx|[Hx _]]; [|done]. by apply (sublist_elem c rest).
    + intros Hx. destruct (decide (x ∈ c)); auto.
Qed.
Lemma concat_perm (p q : list (list V)) : p ≡ₚ q -> concat p ≡ₚ concat q.
Proof. induction 1; cbn; [done|by rewrite IHPermutation|by rewrite !app_assoc, (Permutation_app_comm x)|by etransitivity]. Qed.
Lemma same_partition_refl (p : list (list V)) : same_partition p p.
Proof. split; intros b Hb; by exists b. Qed.
Lemma same_partition_sym (p q : list (list V)) : same_partition p q -> same_partition q p.
Proof. intros [H1 H2]. split; intros b Hb; [destruct (H2 b Hb) as (c & Hc & Hp)|destruct (H1 b Hb) as (c & Hc & Hp)]; exists c; by split. Qed.

(** [ord] only reorders. *)
Definition reorders (ord : list (list V) -> bool -> list V -> list V) : Prop := forall p b l, ord p b l ≡ₚ l.

Lemma partitions_ok ord (Hord : reorders ord) r : forall fuel path s, (1 <= r) -> length s < fuel -> NoDup s -> Nat.modulo (length s) r = 0 ->
  exists L, partitions ord fuel path s (Z.of_nat r) = Ok L /\
    (forall p, p ∈ L -> is_partition s r p) /\ (forall p, is_partition s r p -> exists q, q ∈ L /\ same_partition p q) /\
    NoDup L /\ (forall p q, p ∈ L -> q ∈ L -> same_partition p q -> p = q).
Proof.
  induction fuel as [|fuel IH]; intros path s Hr Hf Hs Hm; [lia|]. cbn [partitions]. rewrite decide_False by lia.
  rewrite (decide_True (P := (_ `mod` _ = 0)%Z)) by (rewrite <- Nat2Z.inj_mod; lia).
  pose proof (Hord path false s) as Hp. destruct (ord path false s) as [|x rest0].
  { apply Permutation_nil_l in Hp as <-. exists [[]]. split; [done|]. split_and!.
    - intros p ->%elem_of_list_singleton. split; [done|]. by apply Forall_nil.
    - intros p [Hc Hl]. exists []. split; [left|]. destruct p as [|b p]; [apply same_partition_refl|]. apply Forall_cons in Hl as [Hb _]. cbn in Hc. apply Permutation_nil_r in Hc. destruct b; [cbn in Hb; lia|done].
    - apply NoDup_singleton.
    - by intros p q ->%elem_of_list_singleton ->%elem_of_list_singleton. }
  pose proof (Hord path true rest0) as Hp2. set (rest := ord path true rest0) in *. rewrite <- Hp2 in Hp. clearbody rest. clear Hp2 rest0.
  assert (NoDup (x :: rest)) as Hnd by (by rewrite Hp). apply NoDup_cons in Hnd as [Hx Hrest].
  unfold combs_z. rewrite decide_True by lia. cbn [rbind]. replace (Z.to_nat (Z.of_nat r - 1)) with (r - 1) by lia.
  assert (length s = S (length rest)) as Hlen by (rewrite <- Hp; done).
  (* the recursive calls *)
  assert (forall c, c ∈ combs (r - 1) rest -> exists L, partitions ord fuel (path ++ [x :: c]) (sdiff rest c) (Z.of_nat r) = Ok L /\
    (forall p, p ∈ L -> is_partition (sdiff rest c) r p) /\ (forall p, is_partition (sdiff rest c) r p -> exists q, q ∈ L /\ same_partition p q) /\
    NoDup L /\ (forall p q, p ∈ L -> q ∈ L -> same_partition p q -> p = q)) as Hrec.
  { intros c [Hc Hlc]%elem_of_combs. pose proof (sdiff_perm rest c Hrest Hc) as Hsd. pose proof (Permutation_length Hsd) as Hl. rewrite app_length in Hl. apply IH; [done|lia|by apply NoDup_filter|].
    assert (length s = length (sdiff rest c) + 1 * r) as E by lia. rewrite E in Hm. by rewrite Nat.mod_add in Hm by lia. }
  assert (forall cs acc, (forall c, c ∈ cs -> c ∈ combs (r - 1) rest) -> NoDup cs ->
    (forall p, p ∈ acc -> forall c q, c ∈ cs -> p <> (x :: c) :: q) -> NoDup acc ->
    exists L, rfold (fun acc c => let? ps := partitions ord fuel (path ++ [x :: c]) (sdiff rest c) (Z.of_nat r) in Ok (acc ++ (((x :: c) ::.) <$> ps))) acc cs = Ok L /\ NoDup L /\
      forall p, p ∈ L <-> p ∈ acc \/ exists c q Lc, c ∈ cs /\ p = (x :: c) :: q /\ partitions ord fuel (path ++ [x :: c]) (sdiff rest c) (Z.of_nat r) = Ok Lc /\ q ∈ Lc) as Hfold.
  { induction cs as [|c cs IHc]; intros acc Hcs Hnc Hdis Hacc.
    { exists acc. split; [done|]. split; [done|]. intros p. split; [by left|]. intros [?|(? & ? & ? & H' & _)]; [done|]. by apply elem_of_nil in H'. }
    apply NoDup_cons in Hnc as [Hc Hnc]. destruct (Hrec c) as (Lc & E & _ & _ & HndL & _); [apply Hcs; left|]. cbn [rfold]. rewrite E. cbn [rbind].
    destruct (IHc (acc ++ (((x :: c) ::.) <$> Lc))) as (L & EL & HnL & HL).
    - intros c' Hc'. apply Hcs. by right.
    - done.
    - intros p [Hpa|(q & -> & Hq)%elem_of_list_fmap]%elem_of_app c' q' Hc'; [apply Hdis; [done|by right]|]. intros [= -> _]. done.
    - apply NoDup_app. split; [done|]. split; [|by apply NoDup_fmap_2; [by intros ? ? [= ->]|]]. intros p Hpa (q & -> & Hq)%elem_of_list_fmap. by apply (Hdis _ Hpa c q); [left|].
    - exists L. split; [done|]. split; [done|]. intros p. rewrite HL, elem_of_app, elem_of_list_fmap. split.
      + intros [[?|(q & -> & Hq)]|(c' & q & Lc' & Hc' & ?)]; [by left| |]; right; [exists c, q, Lc; split; [left|done]|exists c', q, Lc'; split; [by right|done]].
      + intros [?|(c' & q & Lc' & Hc' & -> & E' & Hq)]; [by left; left|]. apply elem_of_cons in Hc' as [->|Hc'].
        * left. right. exists q. split; [done|]. congruence.
        * right. by exists c', q, Lc'. }
  destruct (Hfold (combs (r - 1) rest) []) as (L & EL & HnL & HL); [done|by apply NoDup_combs|by intros p ?%elem_of_nil|by apply NoDup_nil|].
  exists L. split; [exact EL|].
  assert (forall c, c ∈ combs (r - 1) rest -> x ∉ c) as Hxc. { intros c [Hc _]%elem_of_combs Hin. apply Hx. by apply (sublist_elem c rest). }
  split_and!.
  - intros p [Hn|(c & q & Lc & Hc & -> & E & Hq)]%HL; [by apply elem_of_nil in Hn|]. destruct (Hrec c Hc) as (Lc' & E' & H1 & _). rewrite E in E'. injection E' as <-. destruct (H1 q Hq) as [Hq1 Hq2].
    apply elem_of_combs in Hc as [Hc Hlc]. split.
    + cbn. rewrite Hq1, sdiff_perm by done. done.
    + apply Forall_cons. split; [cbn; lia|done].
  - intros p [Hc Hl]. assert (x ∈ concat p) as Hxp. { rewrite Hc, <- Hp. left. } apply elem_of_concat in Hxp as (b & Hxb & Hb).
    apply elem_of_Permutation in Hb as [p' Hpp]. apply elem_of_Permutation in Hxb as [b' Hbb].
    assert (length b = r) as Hlb. { rewrite Forall_forall in Hl. apply Hl. rewrite Hpp. left. }
    pose proof (concat_perm _ _ Hpp) as Hcp. cbn in Hcp.
    assert (b' ++ concat p' ≡ₚ rest) as Hcr. { apply (Permutation_cons_inv (a := x)). rewrite Hp, <- Hc, Hcp, Hbb. done. }
    assert (NoDup (b' ++ concat p')) as Hnb by (by rewrite Hcr). apply NoDup_app in Hnb as (Hnb & Hdis & _).
    destruct (sublist_of rest b' Hrest Hnb) as (c & Hcc & Hcb). { intros z Hz. rewrite <- Hcr. apply elem_of_app. by left. }
    assert (length b' = r - 1) as Hlb'. { rewrite Hbb in Hlb. cbn in Hlb. lia. } rewrite Hlb' in Hcc.
    destruct (Hrec c Hcc) as (Lc & E & _ & H2 & _). destruct (H2 p') as (q & Hq & Hsame).
    { split.
      - apply elem_of_combs in Hcc as [Hcc _]. apply (Permutation_app_inv_l c). rewrite sdiff_perm by done. by rewrite Hcb.
      - rewrite Hpp in Hl. by apply Forall_cons in Hl as [_ Hl]. }
    exists ((x :: c) :: q). split; [apply HL; right; by exists c, q, Lc|]. destruct Hsame as [S1 S2]. split.
    + intros z Hz. rewrite Hpp in Hz. apply elem_of_cons in Hz as [->|Hz].
      * exists (x :: c). split; [left|]. by rewrite Hbb, Hcb.
      * destruct (S1 z Hz) as (w & Hw & ?). exists w. split; [by right|done].
    + intros z [->|Hz]%elem_of_cons.
      * exists b. split; [rewrite Hpp; left|]. by rewrite Hbb, Hcb.
      * destruct (S2 z Hz) as (w & Hw & ?). exists w. split; [rewrite Hpp; by right|done].
  - done.
  - intros p p2 Hp1%HL Hp2%HL Hsame. destruct Hp1 as [Hn|(c & q & Lc & Hc & -> & E & Hq)]; [by apply elem_of_nil in Hn|]. destruct Hp2 as [Hn|(c2 & q2 & Lc2 & Hc2 & -> & E2 & Hq2)]; [by apply elem_of_nil in Hn|].
    assert (forall c q Lc, c ∈ combs (r - 1) rest -> partitions ord fuel (path ++ [x :: c]) (sdiff rest c) (Z.of_nat r) = Ok Lc -> q ∈ Lc -> forall b, b ∈ q -> x ∉ b) as Hno.
    { intros c0 q0 Lc0 Hc0 E0 Hq0 b Hb Hxb. destruct (Hrec c0 Hc0) as (Lc' & E' & H1 & _). rewrite E0 in E'. injection E' as <-. destruct (H1 q0 Hq0) as [Hq1 _].
      assert (x ∈ concat q0) as Hin by (apply elem_of_concat; by exists b). rewrite Hq1 in Hin. apply elem_of_sdiff in Hin as [Hin _]. done. }
    destruct Hsame as [S1 S2]. assert (c = c2) as <-.
    { destruct (S1 (x :: c)) as (b & Hb & Hbp); [left|]. apply elem_of_cons in Hb as [->|Hb].
      - apply (Permutation_cons_inv) in Hbp. apply elem_of_combs in Hc as [Hc _], Hc2 as [Hc2 _]. apply (sublist_ext rest); [done..|]. intros z. by apply perm_elem.
      - exfalso. apply (Hno c2 q2 Lc2 Hc2 E2 Hq2 b Hb). rewrite <- Hbp. left. }
    f_equal. rewrite E in E2. injection E2 as <-. destruct (Hrec c Hc) as (Lc' & E' & _ & _ & _ & Hu). rewrite E in E'. injection E' as <-. apply Hu; [done..|]. split.
    + intros b Hb. destruct (S1 b) as (b2 & Hb2 & Hbp); [by right|]. apply elem_of_cons in Hb2 as [->|Hb2]; [|by exists b2]. exfalso. apply (Hno c q Lc Hc E Hq b Hb). rewrite Hbp. left.
    + intros b Hb. destruct (S2 b) as (b2 & Hb2 & Hbp); [by right|]. apply elem_of_cons in Hb2 as [->|Hb2]; [|by exists b2]. exfalso. apply (Hno c q2 Lc Hc E Hq2 b Hb). rewrite <- Hbp. left.
Qed.
End parts.
