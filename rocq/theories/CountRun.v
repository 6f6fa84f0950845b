(** * The loops of the orbit counts *)
From stdpp Require Import prelude relations.
From Verif Require Import Base Net NetSpec NetHist NetIter Supra MpxSpec MpxFacts MpxHist MpxIter MpxTrans MpxBuild PropsMpx MpxRelabel MpxSub PropsMpxSub PropsMpxEq OverlapFacts MpxEdges
  Samp Graphlet GraphletSpec GraphletFacts TouchFacts Isom IsomFacts MpxIsom IsomSpec PropsIsom PropsIsomMpx SampFacts Enum EnumSpec EnumNet EnumFacts OrbitCount CountSpec CountFacts.
Local Open Scope nat_scope.

(** ** The loops that collect sets of nodes *)
Section loops.
Context (nb : name -> res (list name)) (nb' : name -> list name) (V : name -> Prop).
Hypothesis nb_ok : forall x, V x -> nb x = Ok (nb' x).
Hypothesis nb_in : forall x y, y ∈ nb' x -> V y.
Lemma mgrow_ok bad s sc : (forall z, z ∈ s -> V z) -> mgrow nb bad sc s = Ok (grow_sets' nb' bad sc s).
Proof using nb_ok. intros Hs. unfold mgrow, grow_sets'. apply rfold_foldl. intros t x Hx. rewrite nb_ok by (by apply Hs). done. Qed.
Definition inside (ps : list (list name)) : Prop := forall s z, s ∈ ps -> z ∈ s -> V z.
Lemma mgrow_all bad ps sc : inside ps -> rfold (mgrow nb bad) sc ps = Ok (foldl (grow_sets' nb' bad) sc ps).
Proof using nb_ok. intros Hi. apply rfold_foldl. intros t s Hs. apply mgrow_ok. intros z Hz. by apply (Hi s). Qed.
Lemma inside_grow bad ps sc : inside ps -> inside sc -> inside (foldl (grow_sets' nb' bad) sc ps).
Proof using nb_in.
  intros Hi Hc s z Hs Hz. rewrite grow_all in Hs. apply addall_spec in Hs as [Hs|Hs]; [by apply (Hc s)|]. apply elem_of_cands in Hs as (p & x & y & Hp & _ & Hy & _ & _ & ->).
  apply elem_of_sadd in Hz as [-> |Hz]; [by eapply nb_in|by apply (Hi p)].
Qed.
Lemma mtouching_loop_ok : forall k ps sc ns, inside ps -> inside sc -> mtouching_loop nb k ps sc ns = Ok (touching_loop nb' k ps sc ns).
Proof using nb_ok nb_in.
  induction k as [|k IH]; intros ps sc ns Hp Hc; cbn [mtouching_loop touching_loop]; [done|]. rewrite mgrow_all by done. cbn [rbind].
  assert (foldl (grow_sets nb') sc ps = foldl (grow_sets' nb' []) sc ps) as ->.
  { clear. revert sc. induction ps as [|p ps IH]; intros sc; cbn; [done|]. by rewrite grow_sets_nil, IH. }
  apply IH; by apply inside_grow.
Qed.
Lemma mall_sets_loop_ok bad : forall k ps ns, inside ps -> mall_sets_loop nb bad k ps ns = Ok (all_sets_loop nb' bad k ps ns).
Proof using nb_ok nb_in.
  induction k as [|k IH]; intros ps ns Hp; cbn [mall_sets_loop all_sets_loop]; [done|]. rewrite mgrow_all by done. cbn [rbind].
  apply IH. apply inside_grow; [done|]. by intros s z ?%elem_of_nil.
Qed.
End loops.

(** ** Neighbours *)
Section nbrs.
Context (c : coupling) (layers : list name) (n_l : nat) (Hfit : coupling_fits c layers).
Context (p : mpx) (Hp : plain c p) (Hl : on_layers layers n_l p).
Lemma mnbrs_ok x : mhas p 0 x -> exists L, mnbrs p x = Ok L /\ (forall y, y ∈ L -> tied_somewhere p x y \/ y = x) /\ (forall y, tied_somewhere p x y -> y ∈ L).
Proof using Hfit Hp Hl.
  intros Hx. destruct (plain_ok c layers n_l Hfit p Hp Hl) as (h & Hh & Hf & Hlp).
  assert (forall l, l ∈ layers_of p -> [x; l] ∈ cart (mslices p)) as Hcart.
  { intros l Hll%elem_of_layers_of. eapply ex_cart; [exact Hh|]. apply (en_exists _ _ _ Hh). by exists x, l. }
  set (nbl := fun l => match mp_iter p DTot [x; l] None with Ok K => node_of <$> K | Err _ => [] end).
  assert (forall l y, l ∈ layers_of p -> y ∈ nbl l <-> exists b, y = node_of b /\ mexists p b /\ mlinked p [x; l] b) as Hnbl.
  { intros l y Hll. destruct (iter_any [c] false true h p Hh Hf Hlp [x; l] DTot (Hcart l Hll)) as (K & EK & _ & HK). unfold nbl. rewrite EK, elem_of_list_fmap. setoid_rewrite HK.
    split; intros (b & -> & H); exists b; (split; [done|]).
    - destruct H as (Ha & Hb & H). split; [done|]. by apply (und_linked [c] false true h p Hh Hf).
    - destruct H as [Hb H]. assert (mexists p [x; l]) as Ha by (apply (en_exists _ _ _ Hh); exists x, l; split; [done|]; split; [done|by apply elem_of_layers_of]). split; [done|]. split; [done|]. by left. }
  exists (concat (nbl <$> layers_of p)). split.
  { unfold mnbrs. rewrite (rmapM_Ok_iff _ nbl); [done|]. intros l Hll. destruct (iter_any [c] false true h p Hh Hf Hlp [x; l] DTot (Hcart l Hll)) as (K & EK & _). unfold nbl. by rewrite EK. }
  split.
  - intros y Hy. apply GraphletFacts.elem_of_concat in Hy as (K & Hy & (l & -> & Hll)%elem_of_list_fmap). apply Hnbl in Hy as (b & -> & (z & l' & -> & Hz & Hl')%(en_exists _ _ _ Hh) & H); [|done].
    cbn [node_of hd default]. apply elem_of_layers_of in Hll. destruct (decide (l = l')) as [<-|Hne].
    + apply (en_intra _ _ _ Hh) in H as [_ Ht]; [|done..]. left. by exists l.
    + apply (en_cross _ _ _ Hh) in H as [-> _]; [by right|by eapply fits_no_net|done..].
  - intros y [l Ht]. destruct (en_tied _ _ _ Hh l x y Ht) as (_ & Hy & Hll). apply GraphletFacts.elem_of_concat. exists (nbl l). split; [|apply elem_of_list_fmap; exists l; split; [done|by apply elem_of_layers_of]].
    apply Hnbl; [by apply elem_of_layers_of|]. exists [y; l]. split; [done|]. split; [apply (en_exists _ _ _ Hh); eauto|]. apply (en_intra _ _ _ Hh); [done..|]. split; [|done].
    intros ->. destruct Hp as [_ Hn]. by apply (Hn l y).
Qed.
Definition nbp (x : name) : list name := if decide (x ∈ mnodes p) then match mnbrs p x with Ok L => L | Err _ => [] end else [].
Lemma elem_of_mnodes x : x ∈ mnodes p <-> mhas p 0 x.
Proof. by rewrite <- psl_mhas, mnodes_psl. Qed.
Lemma nbp_ok x : mhas p 0 x -> mnbrs p x = Ok (nbp x).
Proof using Hfit Hp Hl. intros Hx. destruct (mnbrs_ok x Hx) as (L & E & _). unfold nbp. rewrite decide_True by (by apply elem_of_mnodes). by rewrite E. Qed.
Lemma tied_nodes x y : tied_somewhere p x y -> mhas p 0 x /\ mhas p 0 y /\ tied_somewhere p y x /\ x <> y.
Proof using Hp.
  intros [l Ht]. destruct Hp as [[h Hh] Hn]. destruct (en_tied _ _ _ Hh l x y Ht) as (? & ? & _). split; [done|]. split; [done|]. split; [exists l; by apply (en_sym _ _ _ Hh)|].
  intros ->. by apply (Hn l y).
Qed.
Lemma elem_of_nbp x y : (y ∈ nbp x -> mhas p 0 x /\ mhas p 0 y /\ (tied_somewhere p x y \/ y = x)) /\ (tied_somewhere p x y -> y ∈ nbp x).
Proof using Hfit Hp Hl.
  unfold nbp. destruct (decide (x ∈ mnodes p)) as [Hx|Hx]; rewrite elem_of_mnodes in Hx.
  - destruct (mnbrs_ok x Hx) as (L & E & H1 & H2). rewrite E. split; [|apply H2]. intros Hy. split; [done|]. apply H1 in Hy as [Hy|<-]; [|by auto]. split; [by apply (tied_nodes x y)|by left].
  - split; [by intros ?%elem_of_nil|]. intros Ht. destruct Hx. by apply (tied_nodes x y).
Qed.
End nbrs.

Section sets.
Context (c : coupling) (layers : list name) (n_l : nat) (Hfit : coupling_fits c layers).
Context (p : mpx) (Hp : plain c p) (Hl : on_layers layers n_l p).
Lemma connected_nbp s : set_connected (fun a b => b ∈ nbp p a) s <-> set_connected (tied_somewhere p) s.
Proof using Hfit Hp Hl.
  unfold set_connected. split; intros H x y Hx Hy; specialize (H x y Hx Hy).
  - clear Hx Hy. induction H as [|x z y (Hz & Ha & Hb) _ IH]; [apply rtc_refl|]. apply (elem_of_nbp c layers n_l Hfit p Hp Hl) in Hz as (_ & _ & [Ht| ->]); [|done].
    eapply rtc_l; [|exact IH]. done.
  - eapply rtc_subrel; [|exact H]. intros a b (Ht & ? & ?). split; [|done]. by apply (elem_of_nbp c layers n_l Hfit p Hp Hl).
Qed.
Lemma nbp_sym x y : y ∈ nbp p x -> x ∈ nbp p y.
Proof using Hfit Hp Hl.
  intros Hy. pose proof Hy as (_ & _ & [Ht| ->])%(elem_of_nbp c layers n_l Hfit p Hp Hl); [|done]. apply (elem_of_nbp c layers n_l Hfit p Hp Hl). by apply (tied_nodes c p Hp).
Qed.
Lemma connected_in s x z : mhas p 0 x -> x ∈ s -> z ∈ s -> set_connected (tied_somewhere p) s -> mhas p 0 z.
Proof using Hp.
  intros Hn Hx Hz Hc. specialize (Hc x z Hx Hz). clear Hx Hz. induction Hc as [|x y z (Ht & _) _ IH]; [done|]. apply IH. by apply (tied_nodes c p Hp x y).
Qed.
Lemma mtouching_lists x n : mhas p 0 x -> exists L, mtouching p x n = Ok L /\ lists_sets L (touches p n x).
Proof using Hfit Hp Hl.
  intros Hx. eexists. split.
  - unfold mtouching. apply (mtouching_loop_ok (mnbrs p) (nbp p) (mhas p 0)).
    + by apply (nbp_ok c layers n_l).
    + intros a b. by intros (_ & ? & _)%(elem_of_nbp c layers n_l Hfit p Hp Hl).
    + by intros s z -> %elem_of_list_singleton -> %elem_of_list_singleton.
    + by intros s z ?%elem_of_nil.
  - eapply lists_sets_iff; [|apply (touching_loop_lists (nbp p) [] x nbp_sym (not_elem_of_nil x) n eq_refl)]. intros s. cbn beta. rewrite connected_nbp. unfold touches. split.
    + intros (H1 & H2 & _ & H4). split_and!; try done; try lia. intros z Hz. by apply (connected_in s x z).
    + intros (H1 & H2 & _ & H4). split_and!; try done; try lia. intros z _. apply not_elem_of_nil.
Qed.
Lemma mall_sets_lists x n bad : mhas p 0 x -> x ∉ bad -> exists L, mall_sets_loop (mnbrs p) bad (n - 1) [[x]] [] = Ok L /\
  lists_sets L (fun s => touches p n x s /\ forall z, z ∈ s -> z ∉ bad).
Proof using Hfit Hp Hl.
  intros Hx Hb. eexists. split.
  - apply (mall_sets_loop_ok (mnbrs p) (nbp p) (mhas p 0)).
    + by apply (nbp_ok c layers n_l).
    + intros a b. by intros (_ & ? & _)%(elem_of_nbp c layers n_l Hfit p Hp Hl).
    + by intros s z -> %elem_of_list_singleton -> %elem_of_list_singleton.
  - eapply lists_sets_iff; [|apply (all_sets_loop_lists (nbp p) bad x nbp_sym Hb n)]. intros s. cbn beta. rewrite connected_nbp. unfold touches. split.
    + intros (H1 & H2 & H3 & H4). split; [|done]. split_and!; try done; try lia. intros z Hz. by apply (connected_in s x z).
    + intros ((H1 & H2 & _ & H4) & H3). split_and!; try done; lia.
Qed.
End sets.

(** ** Lists of sets *)
Lemma lists_sets_filter L (P : list name -> Prop) (Q : list name -> Prop) `{!forall s, Decision (Q s)} : (forall s t, NoDup s -> P s -> same_set s t -> NoDup t -> Q s -> Q t) -> lists_sets L P -> lists_sets (filter Q L) (fun s => P s /\ Q s).
Proof.
  intros Hr (H1 & H2 & H3). split_and!.
  - intros s [Hq Hs]%elem_of_list_filter. destruct (H1 s Hs). done.
  - intros s Hn [Hp Hq]. destruct (H2 s Hn Hp) as (t & Ht & Hst). exists t. split; [|done]. apply elem_of_list_filter. split; [|done]. apply (Hr s t Hn Hp Hst); [|done]. by apply H1.
  - clear - H3. intros i j s t Hi Hj Hst. induction L as [|u L IH] in i, j, H3, Hi, Hj |- *; [done|].
    assert (forall i j s t, L !! i = Some s -> L !! j = Some t -> same_set s t -> i = j) as H3'. { intros i' j' s' t' Hi' Hj' Hst'. specialize (H3 (S i') (S j') s' t' Hi' Hj' Hst'). lia. }
    assert (forall v, v ∈ L -> same_set u v -> False) as Hu. { intros v [k Hk]%elem_of_list_lookup Huv. specialize (H3 0 (S k) u v eq_refl Hk Huv). lia. }
    rewrite filter_cons in Hi, Hj. destruct (decide (Q u)); [|by eapply IH]. destruct i as [|i], j as [|j]; [done| | |].
    + injection Hi as <-. exfalso. apply (Hu t); [|done]. cbn in Hj. apply elem_of_list_lookup_2, elem_of_list_filter in Hj. apply Hj.
    + injection Hj as <-. exfalso. apply (Hu s); [|by apply same_set_sym]. cbn in Hi. apply elem_of_list_lookup_2, elem_of_list_filter in Hi. apply Hi.
    + f_equal. by eapply IH.
Qed.
Lemma lists_sets_app L1 L2 (P Q : list name -> Prop) : (forall s t, P s -> Q t -> same_set s t -> False) -> lists_sets L1 P -> lists_sets L2 Q -> lists_sets (L1 ++ L2) (fun s => P s \/ Q s).
Proof.
  intros Hd (A1 & A2 & A3) (B1 & B2 & B3). split_and!.
  - intros s [Hs|Hs]%elem_of_app; [destruct (A1 s Hs)|destruct (B1 s Hs)]; auto.
  - intros s Hn [Hs|Hs]; [destruct (A2 s Hn Hs) as (t & Ht & ?)|destruct (B2 s Hn Hs) as (t & Ht & ?)]; exists t; (split; [|done]); apply elem_of_app; auto.
  - intros i j s t Hi Hj Hst. apply lookup_app_Some in Hi as [Hi|[Hli Hi]], Hj as [Hj|[Hlj Hj]].
    + by eapply A3.
    + exfalso. apply elem_of_list_lookup_2, A1 in Hi as [_ Hi]. apply elem_of_list_lookup_2, B1 in Hj as [_ Hj]. by apply (Hd s t).
    + exfalso. apply elem_of_list_lookup_2, B1 in Hi as [_ Hi]. apply elem_of_list_lookup_2, A1 in Hj as [_ Hj]. apply (Hd t s); [done..|by apply same_set_sym].
    + pose proof (B3 _ _ _ _ Hi Hj Hst). lia.
Qed.

(** ** The dictionary of counts *)
Lemma bump_list auts (cl : nat * nat * dict name name) (w : name -> orbit) (xs : list name) :
  (forall x, x ∈ xs -> dget auts (cl.1.1, cl.1.2, default x (dget (cl.2) x)) = Some ((w x).2) /\ (w x).1 = cl.1) -> NoDup xs ->
  forall d, (forall x, x ∈ xs -> is_Some (dget d (x, w x))) -> exists d', rfold (bump auts cl) d xs = Ok d' /\
    forall x o, dget d' (x, o) = (fun k => if decide (x ∈ xs /\ o = w x) then S k else k) <$> dget d (x, o).
Proof.
  induction xs as [|y xs IH]; intros Hw Hnd d Hd; cbn [rfold].
  - exists d. split; [done|]. intros x o. destruct (dget d (x, o)); [|done]. cbn. rewrite decide_False; [done|]. by intros [?%elem_of_nil _].
  - apply NoDup_cons in Hnd as [Hy Hnd]. destruct (Hd y) as [k Hk]; [left|]. destruct (Hw y) as [Ha Hc]; [left|].
    assert ((cl.1.1, cl.1.2, (w y).2) = w y) as Ew. { destruct (w y) as [[a b] e]. cbn in Hc |- *. by rewrite <- Hc. }
    unfold bump at 1. rewrite Ha, Ew, Hk. cbn [rbind].
    destruct (IH ltac:(intros z Hz; apply Hw; by right) Hnd (dset d (y, w y) (S k))) as (d' & E & Hd').
    { intros z Hz. rewrite dget_dset_ne; [apply Hd; by right|]. intros [= -> _]. done. }
    exists d'. split; [done|]. intros x o. rewrite Hd'. destruct (decide ((x, o) = (y, w y))) as [[= -> ->]|Hne].
    + rewrite dget_dset_eq, Hk. cbn. rewrite decide_False by (by intros [? _]). rewrite decide_True; [done|]. split; [left|done].
    + rewrite dget_dset_ne by done. destruct (dget d (x, o)); [|done]. cbn. f_equal.
      destruct (decide (x ∈ xs /\ o = w x)) as [H|H], (decide (x ∈ y :: xs /\ o = w x)) as [H'|H']; try done; exfalso.
      * apply H'. split; [right; apply H|apply H].
      * destruct H' as [[-> |?]%elem_of_cons ->]; [done|]. by apply H.
Qed.
Lemma zeros (x : name) (ol : list orbit) : forall (d : dict (name * orbit) nat) y o,
  dget (foldl (fun d o => dset d (x, o) 0) d ol) (y, o) = if decide (y = x /\ o ∈ ol) then Some 0 else dget d (y, o).
Proof.
  induction ol as [|o' ol IH]; intros d y o; cbn [foldl].
  - rewrite decide_False; [done|]. by intros [_ ?%elem_of_nil].
  - rewrite IH. destruct (decide (y = x /\ o ∈ ol)) as [[-> H]|H]; [by rewrite decide_True by (split; [done|by right])|].
    destruct (decide ((y, o) = (x, o'))) as [[= -> ->]|Hne]; [rewrite dget_dset_eq, decide_True; [done|split; [done|left]]|].
    rewrite dget_dset_ne by done. rewrite decide_False; [done|]. intros [-> [-> |?]%elem_of_cons]; [done|]. by apply H.
Qed.
Lemma zeros_all (ol : list orbit) (xs : list name) : forall (d : dict (name * orbit) nat) y o,
  dget (foldl (fun d x => foldl (fun d o => dset d (x, o) 0) d ol) d xs) (y, o) = if decide (y ∈ xs /\ o ∈ ol) then Some 0 else dget d (y, o).
Proof.
  induction xs as [|x xs IH]; intros d y o; cbn [foldl].
  - rewrite decide_False; [done|]. by intros [?%elem_of_nil _].
  - rewrite IH, zeros.
    destruct (decide (y ∈ xs /\ o ∈ ol)) as [H1|H1], (decide (y = x /\ o ∈ ol)) as [H2|H2], (decide (y ∈ x :: xs /\ o ∈ ol)) as [H3|H3]; try done; exfalso; rewrite elem_of_cons in H3; tauto.
Qed.
Lemma filter_none {B} (P : B -> Prop) `{!forall x, Decision (P x)} (l : list B) : (forall x, x ∈ l -> ~ P x) -> filter P l = [].
Proof. induction l as [|x l IH]; intros Hn; [done|]. rewrite filter_cons, decide_False by (apply Hn; left). apply IH. intros y Hy. apply Hn. by right. Qed.
Section runs.
Context (c : coupling) (layers : list name) (n_l : nat) (Hkind : EnumSpec.one_kind layers) (Hfit : coupling_fits c layers).
Context (al : option (list nat)) (Hal : aspects_ok 1 al) (Hal0 : 0 ∈ aspect_list 1 al).
Context {T : Type} `{EqDecision T} (structure : auxg -> auxg -> bool) (mapping : auxg -> auxg -> dict nat nat) (canon : dict nat nat -> list (nat * nat) -> T).
Context (n : nat) (nets : dict nat (list mpx)) (invs : @invariants T) (auts : dict orbit name) (orbits : list orbit).
Context (Hback : exact_backend structure) (Hmap : exact_mapping structure mapping) (Hcat : catalogue canon al c layers n_l n nets invs auts orbits).
Notation cls := (classify structure mapping canon al nets invs).
Notation orb := (orbit_of al structure mapping canon nets invs auts).
Notation occ := (occupies c al nets auts).
Definition nice (p : mpx) (s : list name) : Prop := NoDup s /\ 2 <= length s <= n /\ (forall z, z ∈ s -> mhas p 0 z) /\ set_connected (tied_somewhere p) s.
Lemma sets_run p (xs : list name -> list name) (sets : list (list name)) : plain c p -> on_layers layers n_l p -> (forall s, s ∈ sets -> nice p s /\ NoDup (xs s) /\ forall x, x ∈ xs s -> x ∈ s) ->
  forall d, (forall s x o, s ∈ sets -> x ∈ xs s -> o ∈ orbits -> is_Some (dget d (x, o))) ->
  exists d', rfold (fun d s => let? cl := cls p s in rfold (bump auts cl) d (xs s)) d sets = Ok d' /\
    forall x o, dget d' (x, o) = (fun k => k + length (filter (fun s => x ∈ xs s /\ o = orb p s x) sets)) <$> dget d (x, o).
Proof using Hkind Hfit Hal Hal0 Hback Hmap Hcat.
  intros Hp Hl. induction sets as [|s sets IH]; intros Hs d Hd; cbn [rfold].
  - exists d. split; [done|]. intros x o. destruct (dget d (x, o)); [|done]. cbn. f_equal. lia.
  - destruct (Hs s) as ((S1 & S2 & S3 & S4) & S5 & S6); [left|].
    destruct (orbit_of_ok c layers n_l Hkind Hfit al Hal Hal0 structure mapping canon n nets invs auts orbits Hback Hmap Hcat p s Hp Hl S1 S2 S3 S4) as (cl & Ecl & Hcl). rewrite Ecl. cbn [rbind].
    destruct (bump_list auts cl (orb p s) (xs s)) with (d := d) as (d1 & E1 & H1).
    { intros x Hx%S6. destruct (Hcl x Hx) as (_ & ? & ? & _). done. } { done. }
    { intros x Hx. apply (Hd s); [left|done|]. by apply Hcl, S6. }
    rewrite E1. cbn [rbind]. destruct (IH ltac:(intros t Ht; apply Hs; by right) d1) as (d' & E & H').
    { intros t x o Ht Hx Ho. rewrite H1. destruct (Hd t x o) as [k ->]; [by right|done..|]. by eexists. }
    exists d'. split; [done|]. intros x o. rewrite H', H1, filter_cons. destruct (dget d (x, o)) as [k|]; [|done]. cbn. f_equal. destruct (decide _); cbn [length]; lia.
Qed.
Lemma induced_same p s t q : same_set s t -> induced c p s q -> induced c p t q.
Proof. intros Hst (H1 & H2 & H3 & H4). assert (forall z, z ∈ s <-> z ∈ t) as E by (intros z; destruct Hst; split; auto). split; [done|]. split; [intros x; by rewrite H2|]. split; [done|]. intros l x y. by rewrite H4, !E. Qed.
Lemma occ_same p x o s t : same_set s t -> occ p x o s -> occ p x o t.
Proof. intros Hst (q & g & f & Hq & H). exists q, g, f. split; [by eapply induced_same|done]. Qed.
Lemma connected_same R s t : same_set s t -> set_connected R s -> set_connected R t.
Proof.
  intros [H1 H2] Hc x y Hx%H2 Hy%H2. eapply rtc_subrel; [|by apply Hc]. intros a b (? & ? & ?). auto.
Qed.
Lemma nice_same p s t : same_set s t -> NoDup t -> nice p s -> nice p t.
Proof.
  intros Hst Ht (H1 & H2 & H3 & H4). pose proof (Permutation_length (same_set_perm s t H1 Ht Hst)) as Hlen. split; [done|]. split; [lia|]. split; [intros z Hz; apply H3; by apply Hst|by eapply connected_same].
Qed.
Lemma orb_occ p s x o : plain c p -> on_layers layers n_l p -> nice p s -> x ∈ s -> (o = orb p s x <-> occ p x o s).
Proof using Hkind Hfit Hal Hal0 Hback Hmap Hcat.
  intros Hp Hl (S1 & S2 & S3 & S4) Hx. destruct (orbit_of_ok c layers n_l Hkind Hfit al Hal Hal0 structure mapping canon n nets invs auts orbits Hback Hmap Hcat p s Hp Hl S1 S2 S3 S4) as (cl & _ & Hcl).
  destruct (Hcl x Hx) as (_ & _ & _ & H). by rewrite H.
Qed.
Lemma touches_nice p x s : touches p n x s /\ NoDup s <-> x ∈ s /\ nice p s.
Proof. unfold touches, nice. tauto. Qed.
(** Counting the sets in a list. *)
Lemma count_filter p (xs : list name -> list name) L x o (P : list name -> Prop) : plain c p -> on_layers layers n_l p -> lists_sets L P -> (forall s, NoDup s -> P s -> nice p s) ->
  (forall s z, NoDup s -> P s -> z ∈ xs s -> z ∈ s) -> (forall s t, same_set s t -> x ∈ xs s -> x ∈ xs t) ->
  lists_sets (filter (fun s => x ∈ xs s /\ o = orb p s x) L) (fun s => P s /\ x ∈ xs s /\ occ p x o s).
Proof using Hkind Hfit Hal Hal0 Hback Hmap Hcat.
  intros Hp Hl HL Hn Hxs Hsame.
  assert (lists_sets (filter (fun s => x ∈ xs s /\ o = orb p s x) L) (fun s => P s /\ x ∈ xs s /\ o = orb p s x)) as H.
  { apply lists_sets_filter; [|done]. intros s t Hs HP Hst Ht [Hx Ho]. pose proof (Hn s Hs HP) as Hns. split; [by apply (Hsame s t)|].
    apply orb_occ; [done|done|by eapply nice_same|apply Hst; by apply Hxs|]. apply (occ_same p x o s t Hst). apply orb_occ; [done..|by apply Hxs|done]. }
  destruct H as (A1 & A2 & A3). split_and!; [| |done].
  - intros s Hs. destruct (A1 s Hs) as (Hd & HP & Hx & Ho). split; [done|]. split; [done|]. split; [done|]. apply orb_occ; [done..|by apply Hn|by apply Hxs|done].
  - intros s Hs (HP & Hx & Ho). apply A2; [done|]. split; [done|]. split; [done|]. apply orb_occ; [done..|by apply Hn|by apply Hxs|done].
Qed.
Lemma orbit_counts_ok p x d0 : plain c p -> on_layers layers n_l p -> mhas p 0 x ->
  exists d, orbit_counts structure mapping canon al nets invs auts n x p d0 orbits = Ok d /\
    (forall o, o ∈ orbits -> exists k, dget d (x, o) = Some k /\ counts_sets k (fun s => touches p n x s /\ occ p x o s)) /\
    (forall y o, y <> x \/ o ∉ orbits -> dget d (y, o) = dget d0 (y, o)).
Proof using Hkind Hfit Hal Hal0 Hback Hmap Hcat.
  intros Hp Hl Hx. destruct (mtouching_lists c layers n_l Hfit p Hp Hl x n Hx) as (L & EL & HL). pose proof HL as (L1 & _ & _).
  unfold orbit_counts. rewrite EL. cbn [rbind]. set (d1 := foldl _ d0 orbits).
  destruct (sets_run p (fun s => [x]) L Hp Hl) with (d := d1) as (d & E & Hd).
  { intros s Hs. destruct (L1 s Hs) as [Hn Ht]. destruct (proj1 (touches_nice p x s) (conj Ht Hn)) as [? ?]. split; [done|]. split; [apply NoDup_singleton|]. by intros z -> %elem_of_list_singleton. }
  { intros s y o _ -> %elem_of_list_singleton Ho. unfold d1. rewrite zeros, decide_True by done. by eexists. }
  exists d. split; [|split].
  - rewrite <- E. clear. generalize d1. induction L as [|s L IH]; intros d; cbn [rfold]; [done|]. destruct (cls p s) as [cl|e]; cbn [rbind]; [|done].
    cbn [rfold]. destruct (bump auts cl d x); cbn [rbind]; [apply IH|done].
  - intros o Ho. eexists. split.
    + rewrite Hd. unfold d1. rewrite zeros, decide_True by done. cbn. done.
    + eexists. split; [|done]. eapply lists_sets_iff; [|apply (count_filter p (fun _ => [x]) L x o (touches p n x) Hp Hl HL)].
      * intros s. cbn beta. rewrite elem_of_list_singleton. tauto.
      * intros s Hs Ht. by apply (touches_nice p x s).
      * intros s z _ Ht -> %elem_of_list_singleton. apply Ht.
      * intros s t _ _. left.
  - intros y o Hy. rewrite Hd. unfold d1. rewrite zeros, decide_False by naive_solver. destruct (dget d0 (y, o)) as [k|]; [|done]. cbn. f_equal.
    assert (filter (fun s => y ∈ [x] /\ o = orb p s y) L = []) as ->; [|cbn; lia]. apply filter_none. intros s Hs [-> %elem_of_list_singleton Ho]. destruct Hy as [?|Hy]; [done|].
    apply Hy. rewrite Ho. destruct (L1 s Hs) as [Hn Ht]. destruct (proj1 (touches_nice p x s) (conj Ht Hn)) as [Hxs (S1 & S2 & S3 & S4)].
    destruct (orbit_of_ok c layers n_l Hkind Hfit al Hal Hal0 structure mapping canon n nets invs auts orbits Hback Hmap Hcat p s Hp Hl S1 S2 S3 S4) as (cl & _ & Hcl). by apply Hcl.
Qed.

(** ** Dropping the links of a node *)
Lemma drop_layer q x l : plain c q -> on_layers layers n_l q -> mhas q 0 x -> mhas q 1 l ->
  exists q', (let? bs := mp_iter q DTot [x; l] (Some [None; Some l]) in mbuild q ((fun b => MSet [x; node_of b; l] 0) <$> bs)) = Ok q' /\ plain c q' /\ (forall k y, k <= 1 -> mhas q' k y <-> mhas q k y) /\
    forall l' a b, tied q' l' a b <-> tied q l' a b /\ ~ (l' = l /\ (a = x \/ b = x)).
Proof using Hfit.
  intros Hq Hl Hx Hll. destruct (plain_ok c layers n_l Hfit q Hq Hl) as (h & Hh & Hf & Hlp). assert (mexists q [x; l]) as Hex by (apply (en_exists _ _ _ Hh); eauto).
  destruct (C19_neighbours_exact [c] false h q DTot [x; l] (Some [None; Some l]) Hh) as (bs & Ebs & [_ Hbs] & _).
  { cbn. lia. } { done. } { destruct Hf as [(_ & _ & Hok)|(? & _)]; [by apply Hok|done]. } { split; [done|]. intros [|[|k]] y; cbn; [done|by intros [= <-]|done]. }
  { pose proof (Hlp _ Hex) as Hs. rewrite (en_asp _ _ _ Hh) in Hs. exact Hs. }
  rewrite Ebs. cbn [rbind]. set (ts := (fun b => (x, node_of b, l)) <$> bs).
  assert (forall a b l', (a, b, l') ∈ ts <-> l' = l /\ a = x /\ tied q l x b) as Hts.
  { intros a b l'. unfold ts. rewrite elem_of_list_fmap. split.
    - intros (z & [= -> -> ->] & Hz). apply Hbs in Hz as ((y & l' & -> & Hy & Hl')%(en_exists _ _ _ Hh) & Hlk & Hmt). specialize (Hmt 1 l eq_refl). cbn in Hmt. injection Hmt as ->.
      split; [done|]. split; [done|]. apply (und_linked [c] false true h q Hh Hf) in Hlk; [|done|done|apply (en_exists _ _ _ Hh); eauto]. apply (en_intra _ _ _ Hh) in Hlk; [|done..]. apply Hlk.
    - intros (-> & -> & Ht). exists [b; l]. split; [done|]. apply Hbs. destruct (en_tied _ _ _ Hh l x b Ht) as (_ & Hb & _). split; [apply (en_exists _ _ _ Hh); eauto|]. split.
      + left. apply (en_intra _ _ _ Hh); [done..|]. split; [|done]. intros ->. destruct Hq as [_ Hn]. by apply (Hn l b).
      + intros [|[|k]] y; cbn; [done|by intros [= <-]|done]. }
  destruct (put_links c h q 0 ts [] Hh) as (q' & g & E & Hg & H0 & H1 & Hw).
  { intros a b l' (-> & -> & Ht)%Hts ->. destruct Hq as [_ Hn]. by apply (Hn l b). }
  assert (forall l' a b, tied q' l' a b <-> tied q l' a b /\ ~ (l' = l /\ (a = x \/ b = x))) as HT.
  { intros l' a b. rewrite !tied_lrd, Hw. destruct (decide _) as [Hin|Hin].
    - split; [done|]. intros [_ Hno]. destruct Hno. rewrite !Hts in Hin. naive_solver.
    - split; [|by intros [? _]]. intros Ht. split; [done|]. intros [-> Hab]. apply Hin. rewrite !Hts. apply tied_lrd in Ht. destruct Hab as [-> | ->]; [by left|]. right. split; [done|]. split; [done|]. by apply (en_sym _ _ _ Hh). }
  exists q'. split.
  - rewrite <- E. f_equal. unfold put_ops, ts. rewrite app_nil_r, <- list_fmap_compose. done.
  - split; [split; [by exists g|intros l' a [Ht _]%HT; destruct Hq as [_ Hn]; by apply (Hn l' a)]|]. split; [|done].
    intros [|[|k]] y Hk; [| |lia].
    + rewrite H0. split; [|by left]. intros [?|(b & l' & [Ht|Ht])]; [done|..]; apply Hts in Ht as (_ & ? & Ht); subst; [done|]. apply (en_tied _ _ _ Hh) in Ht. tauto.
    + rewrite H1. split; [|by left]. intros [?|[?%elem_of_nil|(a & b & (-> & _)%Hts)]]; done.
Qed.
Lemma on_layers_same p q : (forall l, mhas q 1 l <-> mhas p 1 l) -> on_layers layers n_l p -> on_layers layers n_l q.
Proof. intros H (t & [H1 H2] & H3). exists t. split; [|done]. split; [done|]. intros l. by rewrite H, H2. Qed.
Lemma drop_ok p x : plain c p -> on_layers layers n_l p -> mhas p 0 x -> exists q, drop_links p x = Ok q /\ plain c q /\ (forall k y, k <= 1 -> mhas q k y <-> mhas p k y) /\
  forall l a b, tied q l a b <-> tied p l a b /\ a <> x /\ b <> x.
Proof using Hfit.
  intros Hp Hl Hx. unfold drop_links.
  assert (forall ls, (forall l, l ∈ ls -> mhas p 1 l) -> forall done q, plain c q -> (forall k y, k <= 1 -> mhas q k y <-> mhas p k y) ->
    (forall l a b, tied q l a b <-> tied p l a b /\ ~ (l ∈ done /\ (a = x \/ b = x))) ->
    exists q', rfold (fun p l => let? bs := mp_iter p DTot [x; l] (Some [None; Some l]) in mbuild p ((fun b => MSet [x; node_of b; l] 0) <$> bs)) q ls = Ok q' /\ plain c q' /\
      (forall k y, k <= 1 -> mhas q' k y <-> mhas p k y) /\ (forall l a b, tied q' l a b <-> tied p l a b /\ ~ (l ∈ done ++ ls /\ (a = x \/ b = x)))) as Hall.
  { induction ls as [|l ls IH]; intros Hls dn q Hq Hm Ht; cbn [rfold].
    - exists q. by rewrite app_nil_r.
    - destruct (drop_layer q x l Hq) as (q1 & E & Hq1 & Hm1 & Ht1).
      { apply (on_layers_same p); [|done]. intros y. apply Hm. lia. } { apply Hm; [lia|done]. } { apply Hm; [lia|]. apply Hls. left. }
      rewrite E. cbn [rbind]. destruct (IH ltac:(intros y Hy; apply Hls; by right) (dn ++ [l]) q1 Hq1) as (q' & E' & Hq' & Hm' & Ht').
      + intros k y Hk. rewrite Hm1 by done. by apply Hm.
      + intros l' a b. rewrite Ht1, Ht, elem_of_app, elem_of_list_singleton. tauto.
      + exists q'. rewrite <- app_assoc in Ht'. done. }
  destruct (Hall (layers_of p)) with (done := [] : list name) (q := p) as (q & E & Hq & Hm & Ht); try done.
  - intros l. apply elem_of_layers_of.
  - intros l a b. split; [|by intros [? _]]. intros H. split; [done|]. by intros [?%elem_of_nil _].
  - exists q. split; [exact E|]. split; [done|]. split; [done|]. intros l a b. rewrite Ht. cbn [app]. rewrite elem_of_layers_of. destruct Hp as [[h Hh] _]. split.
    + intros [H Hn]. destruct (en_tied _ _ _ Hh l a b H) as (_ & _ & ?). split; [done|]. split; intros ->; apply Hn; auto.
    + intros (H & ? & ?). split; [done|]. intros [_ [?|?]]; done.
Qed.

(** ** All nodes *)
Section all.
Context (p : mpx) (Hp : plain c p) (Hl : on_layers layers n_l p).
Record counted (pre : list name) (st : mpx * list name * dict (name * orbit) nat) : Prop := {
  ct_plain : plain c (st.1.1);
  ct_has : forall k y, k <= 1 -> mhas (st.1.1) k y <-> mhas p k y;
  ct_tied : forall l a b, tied (st.1.1) l a b <-> tied p l a b /\ a ∉ pre /\ b ∉ pre;
  ct_done : forall z, z ∈ st.1.2 <-> z ∈ pre;
  ct_count : forall x o, mhas p 0 x -> o ∈ orbits -> exists L, lists_sets L (fun s => touches p n x s /\ occ p x o s /\ exists z, z ∈ s /\ z ∈ pre) /\ dget (st.2) (x, o) = Some (length L);
  ct_other : forall x o, ~ (mhas p 0 x /\ o ∈ orbits) -> dget (st.2) (x, o) = None }.
Lemma avoid_connected q (pre s : list name) : (forall l a b, tied q l a b <-> tied p l a b /\ a ∉ pre /\ b ∉ pre) -> (forall z, z ∈ s -> z ∉ pre) ->
  set_connected (tied_somewhere q) s <-> set_connected (tied_somewhere p) s.
Proof.
  intros Ht Hs. unfold set_connected. split; intros H x y Hx Hy; (eapply rtc_subrel; [|by apply H]); intros a b ([l Hab] & Ha & Hb); (split; [|done]); exists l.
  - by apply Ht in Hab as [? _].
  - apply Ht. auto.
Qed.
Lemma avoid_occ q (pre s : list name) x o : (forall k y, k <= 1 -> mhas q k y <-> mhas p k y) -> (forall l a b, tied q l a b <-> tied p l a b /\ a ∉ pre /\ b ∉ pre) -> (forall z, z ∈ s -> z ∉ pre) ->
  occ q x o s <-> occ p x o s.
Proof.
  intros Hm Ht Hs. assert (forall r, induced c q s r <-> induced c p s r) as Hi.
  { intros r. unfold induced. split; intros (H1 & H2 & H3 & H4); (split; [done|]); (split; [done|]); split.
    - intros l. rewrite H3. apply Hm. lia.
    - intros l a b. rewrite H4, Ht. split; [tauto|]. intros (? & Ha & Hb). split_and!; auto.
    - intros l. rewrite H3. symmetry. apply Hm. lia.
    - intros l a b. rewrite H4, Ht. split; [|tauto]. intros (? & Ha & Hb). split_and!; auto. }
  unfold occupies. by setoid_rewrite Hi.
Qed.
Lemma count_node_ok pre v st : counted pre st -> v ∉ pre -> mhas p 0 v -> exists st', count_node structure mapping canon al nets invs auts n st v = Ok st' /\ counted (pre ++ [v]) st'.
Proof using Hkind Hfit Hal Hal0 Hback Hmap Hcat Hl.
  destruct st as [[q pr] d]. intros [C1 C2 C3 C4 C5 C6] Hv Hpv. cbn [fst snd] in *. unfold count_node. cbn [fst snd].
  assert (on_layers layers n_l q) as Hlq by (apply (on_layers_same p); [intros l; apply C2; lia|done]). assert (mhas q 0 v) as Hqv by (apply C2; [lia|done]).
  destruct (mall_sets_lists c layers n_l Hfit q C1 Hlq v n pr Hqv ltac:(by rewrite C4)) as (L0 & E0 & HL0). rewrite E0. cbn [rbind]. pose proof HL0 as (L01 & _ & _).
  assert (forall s, NoDup s -> touches q n v s /\ (forall z, z ∈ s -> z ∉ pr) -> nice q s) as Hnice. { intros s Hs [Ht _]. by apply (touches_nice q v s). }
  destruct (sets_run q (fun s => s) L0 C1 Hlq) with (d := d) as (d' & E & Hd').
  { intros s Hs. destruct (L01 s Hs) as [Hn Ht]. split; [by apply Hnice|]. by split. }
  { intros s x o Hs Hx Ho. destruct (L01 s Hs) as [Hn Ht]. destruct (C5 x o) as (L & _ & ->); [|done|by eexists]. apply C2; [lia|]. by apply (Hnice s Hn Ht). }
  rewrite E. cbn [rbind]. destruct (drop_ok q v C1 Hlq Hqv) as (q' & Eq & Hq' & Hm' & Ht'). rewrite Eq. cbn [rbind].
  eexists. split; [done|]. split; cbn [fst snd].
  - done.
  - intros k y Hk. rewrite Hm' by done. by apply C2.
  - intros l a b. rewrite Ht', C3, !elem_of_app, !elem_of_list_singleton. tauto.
  - intros z. rewrite elem_of_sadd, C4, elem_of_app, elem_of_list_singleton. tauto.
  - intros x o Hx Ho. destruct (C5 x o Hx Ho) as (L & HL & EL). exists (L ++ filter (fun s => x ∈ s /\ o = orb q s x) L0). split.
    + eapply lists_sets_iff; [|apply lists_sets_app; [|exact HL|apply (count_filter q (fun s => s) L0 x o _ C1 Hlq HL0 Hnice)]].
      * intros s. cbn beta. setoid_rewrite elem_of_app. setoid_rewrite elem_of_list_singleton. setoid_rewrite C4. split.
        -- intros [(H1 & H2 & z & H3 & H4)|(((H1 & H2 & H3 & H4) & H5) & H6 & H7)].
           ++ split; [done|]. split; [done|]. exists z. auto.
           ++ rewrite (avoid_occ q pre s x o C2 C3 H5) in H7. rewrite (avoid_connected q pre s C3 H5) in H4. split; [|split; [done|by exists v; auto]].
              split_and!; try done; try lia. intros z Hz. apply C2; [lia|]. by apply H3.
        -- intros (H1 & H2 & z & Hz & Hzp). destruct (decide (Exists (fun z => z ∈ pre) s)) as [He|He].
           ++ apply Exists_exists in He as (y & ? & ?). left. split; [done|]. split; [done|]. by exists y.
           ++ assert (forall y, y ∈ s -> y ∉ pre) as Hav by (intros y Hy Hyp; apply He, Exists_exists; eauto). destruct Hzp as [Hzp| ->]; [by destruct (Hav z Hz)|].
              right. destruct H1 as (T1 & T2 & T3 & T4). split; [|split; [done|by apply (avoid_occ q pre s x o C2 C3 Hav)]]. split; [|done]. split; [done|]. split; [done|].
              split; [intros y Hy; apply C2; [lia|by apply T3]|by apply (avoid_connected q pre s C3 Hav)].
      * intros s t (_ & _ & z & Hz & Hzp) ((_ & Hav) & _) Hst. apply (Hav z); [by apply Hst|by apply C4].
      * done.
      * intros s t Hst Hs. by apply Hst.
    + rewrite Hd', EL. cbn. by rewrite app_length.
  - intros x o Hno. by rewrite Hd', C6.
Qed.
Lemma count_nodes_ok : forall nodes pre st, counted pre st -> NoDup nodes -> (forall v, v ∈ nodes -> v ∉ pre /\ mhas p 0 v) ->
  exists st', rfold (count_node structure mapping canon al nets invs auts n) st nodes = Ok st' /\ counted (pre ++ nodes) st'.
Proof using Hkind Hfit Hal Hal0 Hback Hmap Hcat Hl.
  induction nodes as [|v nodes IH]; intros pre st Hc Hnd Hn; cbn [rfold].
  - exists st. by rewrite app_nil_r.
  - apply NoDup_cons in Hnd as [Hv Hnd]. destruct (Hn v) as [Hvp Hpv]; [left|]. destruct (count_node_ok pre v st Hc Hvp Hpv) as (st1 & E & H1). rewrite E. cbn [rbind].
    destruct (IH (pre ++ [v]) st1 H1 Hnd) as (st' & E' & H').
    + intros w Hw. destruct (Hn w) as [? ?]; [by right|]. split; [|done]. rewrite elem_of_app, elem_of_list_singleton. intros [?|?]; [done|by subst].
    + exists st'. by rewrite <- app_assoc in H'.
Qed.
Lemma orbit_counts_all_ok : exists d q, orbit_counts_all structure mapping canon al nets invs auts p n orbits = Ok (d, q) /\
  (forall x o, mhas p 0 x -> o ∈ orbits -> exists k, dget d (x, o) = Some k /\ counts_sets k (fun s => touches p n x s /\ occ p x o s)) /\
  (forall x o, is_Some (dget d (x, o)) <-> mhas p 0 x /\ o ∈ orbits) /\
  plain c q /\ (forall k y, k <= 1 -> mhas q k y <-> mhas p k y) /\ (forall l a b, ~ tied q l a b).
Proof using Hkind Hfit Hal Hal0 Hback Hmap Hcat Hp Hl.
  unfold orbit_counts_all. set (d0 := foldl _ [] (mnodes p)).
  assert (counted [] (p, [], d0)) as H0.
  { split; cbn [fst snd]; try done.
    - intros l a b. split; [|by intros [? _]]. intros. split; [done|]. split; apply not_elem_of_nil.
    - intros x o Hx Ho. exists []. split; [|unfold d0; rewrite zeros_all, decide_True by (split; [by apply elem_of_mnodes|done]); done].
      split_and!; [by intros s ?%elem_of_nil|by intros s _ (_ & _ & z & _ & ?%elem_of_nil)|by intros i j s t].
    - intros x o Hno. unfold d0. rewrite zeros_all, decide_False; [done|]. by rewrite elem_of_mnodes. }
  assert (NoDup (mnodes p)) as Hnd.
  { destruct Hp as [[h Hh] _]. pose proof (pw_nd p (pi_wf _ _ _ _ _ _ (mhist_inv _ _ _ _ _ _ Hh))) as Hn. unfold mnodes. destruct (mslices p) as [|s0 ss]; [constructor|]. by inversion Hn. }
  destruct (count_nodes_ok (mnodes p) [] (p, [], d0) H0 Hnd) as ([[q pr] d] & E & [C1 C2 C3 C4 C5 C6]).
  { intros v Hv. split; [apply not_elem_of_nil|by apply elem_of_mnodes]. }
  cbn [fst snd app] in *. rewrite E. cbn [rbind fst snd]. exists d, q. split; [done|].
  assert (forall x o, mhas p 0 x -> o ∈ orbits -> exists k, dget d (x, o) = Some k /\ counts_sets k (fun s => touches p n x s /\ occ p x o s)) as Hcnt.
  { intros x o Hx Ho. destruct (C5 x o Hx Ho) as (L & HL & EL). exists (length L). split; [done|]. exists L. split; [|done]. eapply lists_sets_iff; [|exact HL]. intros s. cbn beta.
    split; [tauto|]. intros [Ht ?]. split; [done|]. split; [done|]. exists x. split; [apply Ht|by apply elem_of_mnodes]. }
  split; [done|]. split.
  { intros x o. split.
    - intros [k Hk]. destruct (decide (x ∈ mnodes p)) as [Hx|Hx], (decide (o ∈ orbits)) as [Ho|Ho]; rewrite elem_of_mnodes in Hx; [done|..]; (rewrite C6 in Hk by tauto; done).
    - intros [Hx Ho]. destruct (Hcnt x o Hx Ho) as (k & -> & _). by eexists. }
  split; [done|]. split; [done|]. intros l a b (Ht & Ha & _)%C3. apply Ha. apply elem_of_mnodes. destruct Hp as [[h Hh] _]. by apply (en_tied _ _ _ Hh l a b).
Qed.
End all.
End runs.
