(** * Redundant orbits *)
From stdpp Require Import prelude relations.
From Verif Require Import Base Net Supra TransFacts TransFacts2 Samp SampFacts Graphlet GraphletSpec GraphletFacts Indep IndepSpec.
Local Open Scope nat_scope.

Lemma foldl_max l m : (foldl Nat.max m l = m \/ foldl Nat.max m l ∈ l) /\ m <= foldl Nat.max m l /\ forall x, x ∈ l -> x <= foldl Nat.max m l.
Proof.
  revert m. induction l as [|a l IH]; intros m; cbn [foldl]; [split_and!; [by left|done|intros x Hx; by apply elem_of_nil in Hx]|].
  destruct (IH (Nat.max m a)) as (H1 & H2 & H3). split_and!.
  - destruct H1 as [H1|H1]; [|right; by right]. rewrite H1. destruct (Nat.max_spec m a) as [[_ ->]|[_ ->]]; [right; by left|by left].
  - lia.
  - intros x [->|Hx]%elem_of_cons; [lia|by apply H3].
Qed.
Lemma foldl_max_in m l : foldl Nat.max m l ∈ m :: l.
Proof. destruct (foldl_max l m) as ([->|H] & _); [by left|by right]. Qed.
Lemma pick_ok fuel os reds : length os < fuel -> NoDup os ->
  (exists m, pick_red fuel os reds = Ok m /\ m ∈ os /\ m ∉ reds /\ forall j, j ∈ os -> m < j -> j ∈ reds) \/
  (pick_red fuel os reds = Err ValueError /\ forall j, j ∈ os -> j ∈ reds).
Proof.
  revert os. induction fuel as [|fuel IH]; intros os Hl Hnd; [lia|]. cbn [pick_red]. destruct os as [|o os]; [by right; split; [|intros j Hj; apply elem_of_nil in Hj]|].
  destruct (foldl_max os o) as (H1 & H2 & H3). pose proof (foldl_max_in o os) as Hin. set (m := foldl Nat.max o os) in *.
  assert (forall j, j ∈ o :: os -> j <= m) as Hmax. { intros j [->|Hj]%elem_of_cons; auto. }
  destruct (decide (m ∈ reds)) as [Hm|Hm].
  - destruct (IH (sdiff (o :: os) [m])) as [(m' & E & Hm' & Hnr & Hr)|[E Hr]].
    + assert (length (sdiff (o :: os) [m]) < length (o :: os)); [|lia]. unfold sdiff. apply filter_length_lt with m; [done|]. set_solver.
    + by apply NoDup_filter.
    + left. exists m'. apply elem_of_sdiff in Hm' as [? ?]. split_and!; try done. intros j Hj Hlt. destruct (decide (j = m)); [by subst|]. apply Hr; [|done]. apply elem_of_sdiff. set_solver.
    + right. split; [done|]. intros j Hj. destruct (decide (j = m)); [by subst|]. apply Hr. apply elem_of_sdiff. set_solver.
  - left. exists m. split_and!; try done. intros j Hj Hlt. specialize (Hmax j Hj). lia.
Qed.

Section red.
Context (eqs : dict eqkey (list orbit)) (orbit_is : dict orbit nat).
Definition ready (inds : list eqkey) : Prop := forall eq, eq ∈ inds -> exists os, dget eqs eq = Some os /\ forall o, o ∈ os -> is_Some (dget orbit_is o).

Lemma nums_ok os : (forall o, o ∈ os -> is_Some (dget orbit_is o)) ->
  exists is, rmapM (fun o => match dget orbit_is o with None => Err KeyError | Some i => Ok i end) os = Ok is /\ forall i, i ∈ is <-> exists o, o ∈ os /\ dget orbit_is o = Some i.
Proof.
  induction os as [|o os IH]; intros H.
  - exists []. split; [done|]. intros i. split; [intros Hi; by apply elem_of_nil in Hi|]. intros (o & Ho & _). by apply elem_of_nil in Ho.
  - destruct (H o) as [i Ei]; [by left|]. destruct IH as (is & E & His). { intros o' Ho'. apply H. by right. }
    exists (i :: is). cbn [rmapM]. rewrite Ei, E. split; [done|]. intros j. rewrite elem_of_cons, His. split.
    + intros [->|(o' & Ho' & E')]; [exists o; split; [by left|done]|exists o'; split; [by right|done]].
    + intros (o' & [->|Ho']%elem_of_cons & E'); [left; congruence|right; by exists o'].
Qed.
Lemma addall_ok (is acc : list nat) : NoDup acc -> NoDup (foldl (fun s i => sadd i s) acc is) /\ forall i, i ∈ foldl (fun s i => sadd i s) acc is <-> i ∈ acc \/ i ∈ is.
Proof.
  revert acc. induction is as [|i is IH]; intros acc Hn; cbn [foldl]; [split; [done|]; intros i; rewrite elem_of_nil; tauto|].
  destruct (IH (sadd i acc)) as [H1 H2]; [by apply NoDup_sadd|]. split; [done|]. intros j. rewrite H2, elem_of_sadd, elem_of_cons. tauto.
Qed.
Lemma red_step_ok reds eq os : dget eqs eq = Some os -> (forall o, o ∈ os -> is_Some (dget orbit_is o)) ->
  (exists m, red_step eqs orbit_is reds eq = Ok (reds ++ [m]) /\ occurs eqs orbit_is eq m /\ m ∉ reds /\ forall j, occurs eqs orbit_is eq j -> m < j -> j ∈ reds) \/
  (red_step eqs orbit_is reds eq = Err ValueError /\ forall j, occurs eqs orbit_is eq j -> j ∈ reds).
Proof.
  intros E H. unfold red_step. rewrite E. destruct (nums_ok os H) as (is & Eis & His). rewrite Eis. cbn [rbind].
  destruct (addall_ok is [] ltac:(apply NoDup_nil_2)) as [Hn Hi]. set (is' := foldl _ [] is) in *.
  assert (forall j, j ∈ is' <-> occurs eqs orbit_is eq j) as Hocc.
  { intros j. rewrite Hi, elem_of_nil, His. split; [intros [[]|(o & Ho & Eo)]; by exists os, o|]. intros (os' & o & E' & Ho & Eo). right. exists o. split; [congruence|done]. }
  destruct (pick_ok (S (length is')) is' reds) as [(m & Em & Hm & Hr & Hmax)|[Em Hr]]; [lia|done|left|right]; rewrite Em; cbn [rbind].
  - exists m. unfold sadd. rewrite decide_False by done. split; [done|]. split; [by apply Hocc|]. split; [done|]. intros j Hj. apply Hmax. by apply Hocc.
  - split; [done|]. intros j Hj. apply Hr. by apply Hocc.
Qed.
Lemma greedy_snoc inds is eq i : greedy eqs orbit_is inds is -> occurs eqs orbit_is eq i -> i ∉ is -> (forall j, occurs eqs orbit_is eq j -> i < j -> j ∈ is) ->
  greedy eqs orbit_is (inds ++ [eq]) (is ++ [i]).
Proof.
  intros [Hl Hg] Ho Hn Hmax. split; [by rewrite !app_length, Hl|]. intros k eq' i' Hk Hi.
  destruct (decide (k < length inds)) as [Hlt|Hge].
  - rewrite lookup_app_l in Hk by done. rewrite lookup_app_l in Hi by lia. rewrite take_app_le by lia. by apply Hg.
  - assert (k = length inds) as ->. { apply lookup_lt_Some in Hk. rewrite app_length in Hk. cbn in Hk. lia. }
    rewrite lookup_app_r, Nat.sub_diag in Hk by lia. rewrite <- Hl in Hi |- *. rewrite lookup_app_r, Nat.sub_diag in Hi by lia. cbn in Hk, Hi. simplify_eq.
    by rewrite take_app.
Qed.
Lemma red_fold inds : ready inds ->
  (exists is, rfold (red_step eqs orbit_is) [] inds = Ok is /\ greedy eqs orbit_is inds is) \/
  (rfold (red_step eqs orbit_is) [] inds = Err ValueError /\
   exists l1 eq l2 is, inds = l1 ++ eq :: l2 /\ greedy eqs orbit_is l1 is /\ forall j, occurs eqs orbit_is eq j -> j ∈ is).
Proof.
  intros Hr. induction inds as [|eq inds IH] using rev_ind.
  - left. exists []. split; [done|]. split; [done|]. intros k eq i Hk. done.
  - rewrite rfold_app. destruct IH as [(is & E & Hg)|[E (l1 & eq' & l2 & is & El & Hg & Hj)]].
    + intros e He. apply Hr. set_solver.
    + rewrite E. cbn [rbind rfold]. destruct (Hr eq) as (os & Eos & Hos); [set_solver|].
      destruct (red_step_ok is eq os Eos Hos) as [(m & Em & H1 & H2 & H3)|[Em H1]]; rewrite Em.
      * left. exists (is ++ [m]). split; [done|]. by apply greedy_snoc.
      * right. split; [done|]. exists inds, eq, [], is. done.
    + rewrite E. cbn [rbind]. right. split; [done|]. exists l1, eq', (l2 ++ [eq]), is. split; [|done]. by rewrite El, <- app_assoc.
Qed.
(** there is at most one greedy choice *)
Lemma greedy_unique inds is is' : greedy eqs orbit_is inds is -> greedy eqs orbit_is inds is' -> is = is'.
Proof.
  intros [Hl Hg] [Hl' Hg']. assert (forall k, k <= length inds -> take k is = take k is') as H.
  { induction k as [|k IH]; intros Hk; [done|]. specialize (IH ltac:(lia)).
    destruct (lookup_lt_is_Some_2 is k ltac:(lia)) as [i Hi]. destruct (lookup_lt_is_Some_2 is' k ltac:(lia)) as [i' Hi']. destruct (lookup_lt_is_Some_2 inds k ltac:(lia)) as [eq He].
    rewrite (take_S_r _ _ i Hi), (take_S_r _ _ i' Hi'), IH. do 2 f_equal.
    destruct (Hg k eq i He Hi) as (O1 & N1 & M1). destruct (Hg' k eq i' He Hi') as (O2 & N2 & M2). rewrite IH in N1, M1.
    destruct (Nat.lt_trichotomy i i') as [Hlt|[->|Hlt]]; [|done|]; [destruct N2; by apply M1|destruct N1; by apply M2]. }
  specialize (H (length inds) ltac:(lia)). rewrite !take_ge in H by lia. done.
Qed.
Lemma greedy_nodup inds is : greedy eqs orbit_is inds is -> NoDup is.
Proof.
  intros [Hl Hg]. apply NoDup_alt. intros i j x Hi Hj. 
  assert (forall a b, a < b -> is !! a = Some x -> is !! b = Some x -> False) as H.
  { intros a b Hab Ha Hb. destruct (lookup_lt_is_Some_2 inds b) as [eq He]; [rewrite <- Hl; by eapply lookup_lt_Some|].
    destruct (Hg b eq x He Hb) as (_ & Hn & _). apply Hn. apply elem_of_list_lookup. exists a. by rewrite lookup_take. }
  destruct (Nat.lt_trichotomy i j) as [?|[?|?]]; [exfalso; eauto|done|exfalso; eauto].
Qed.
End red.
