(** * Orbit numbering, orbit lists, neighbour sets, independent equations *)
From stdpp Require Import prelude relations.
From Verif Require Import Base Net NetSpec NetFacts NetHist NetIter NetEdges Supra Trans TransFacts TransFacts2 Samp SampFacts EsuRun Graphlet GraphletSpec GraphletFacts TouchFacts SccFacts.
Local Open Scope nat_scope.

(** ** neighbours over all layers *)
Lemma all_nbrs_iff n a b : reachable n -> aspects n = 1 -> b ∈ all_nbrs n a <-> adjacent n a b.
Proof.
  intros Hr Ha. pose proof (reachable_good _ Hr) as Hg. unfold all_nbrs. rewrite elem_of_list_bind. setoid_rewrite elem_of_list_fmap.
  assert (forall x y, linked n x y -> (exists x1 x2, x = [x1; x2] /\ x2 ∈ layers1 n) /\ (exists y1 y2, y = [y1; y2] /\ y2 ∈ layers1 n)) as Hk.
  { intros x y Hl. apply linked_lnk in Hl; [|done]. destruct (lnk_lengths n x y Hg Hl) as [L1 L2]. destruct (lnk_cart n x y Hg Hl) as [C1 C2]. rewrite Ha in *.
    destruct x as [|x1 [|x2 [|]]]; try done. destruct y as [|y1 [|y2 [|]]]; try done.
    apply elem_of_cart in C1, C2. pose proof (Forall2_length _ _ _ C1) as Hlen. unfold layers1. destruct (slices n) as [|s0 [|s1 [|]]]; try done. cbn.
    repeat match goal with H : Forall2 _ (_ :: _) _ |- _ => apply Forall2_cons in H as [? ?] end. split; eauto 10. }
  assert (forall x, lists_exactly (iter_total n x None) (fun b => (linked n x b \/ linked n b x) /\ matches None b)) as Hit by (intros x; by apply iter_total_exact).
  split.
  - intros (l & (c & -> & Hc) & Hl). apply (Hit [a; l]) in Hc as [Hc _].
    assert (exists c1 c2, c = [c1; c2]) as (c1 & c2 & ->). { destruct Hc as [Hc|Hc]; apply Hk in Hc as [(? & ? & ? & _) (? & ? & ? & _)]; eauto. }
    exists l, c2. done.
  - intros (la & lb & Hl). exists la. split.
    + exists [b; lb]. split; [done|]. by apply (Hit [a; la]).
    + destruct Hl as [Hl|Hl]; apply Hk in Hl as [(? & ? & [= <- <-] & ?) (? & ? & [= <- <-] & ?)]; done.
Qed.
Lemma adjacent_sym n a b : adjacent n a b -> adjacent n b a.
Proof. intros (la & lb & [H|H]); exists lb, la; auto. Qed.
Lemma set_connected_iff (R R' : name -> name -> Prop) s : (forall a b, R a b <-> R' a b) -> set_connected R s <-> set_connected R' s.
Proof.
  intros H. unfold set_connected. split; intros Hs x y Hx Hy; (eapply rtc_subrel; [|by apply (Hs x y)]); intros a b (H1 & H2 & H3); (split; [by apply H|done]).
Qed.
Lemma touching_ok n x k : reachable n -> aspects n = 1 ->
  lists_sets (touching n x k) (fun s => x ∈ s /\ 2 <= length s <= k /\ set_connected (adjacent n) s).
Proof.
  intros Hr Ha. unfold touching. pose proof (touching_loop_lists (all_nbrs n) [] x) as H.
  assert (forall a b, b ∈ all_nbrs n a -> a ∈ all_nbrs n b) as Hs. { intros a b. rewrite !all_nbrs_iff by done. apply adjacent_sym. }
  specialize (H Hs (not_elem_of_nil x) k eq_refl). eapply lists_sets_iff; [|exact H].
  intros s. cbn beta. rewrite (set_connected_iff (fun a b => b ∈ all_nbrs n a) (adjacent n)) by (intros; by apply all_nbrs_iff). split; [tauto|]. intros (? & ? & ?). split_and!; try done; try lia. intros z _. apply not_elem_of_nil.
Qed.
Lemma all_sets_net n k nodes : reachable n -> aspects n = 1 -> NoDup nodes ->
  (all_sets (all_nbrs n) k [] nodes).*1 = nodes /\
  forall pre x post, nodes = pre ++ x :: post -> exists L, all_sets (all_nbrs n) k [] nodes !! length pre = Some (x, L) /\
    lists_sets L (fun s => x ∈ s /\ 2 <= length s <= k /\ (forall z, z ∈ s -> z ∉ pre) /\ set_connected (adjacent n) s).
Proof.
  intros Hr Ha Hnd. destruct (all_sets_ok (all_nbrs n) k) with (nodes := nodes) (processed := @nil name) as [H1 H2]; [|done|intros ? _; apply not_elem_of_nil|].
  - intros a b. rewrite !all_nbrs_iff by done. apply adjacent_sym.
  - split; [done|]. intros pre x post E. destruct (H2 pre x post E) as (L & EL & HL). exists L. split; [done|]. eapply lists_sets_iff; [|exact HL].
    intros s. cbn beta. rewrite (set_connected_iff (fun a b => b ∈ all_nbrs n a) (adjacent n)) by (intros; by apply all_nbrs_iff). split; intros (S1 & S2 & S3 & S4); split_and!; try done; try lia.
    + intros z Hz. by apply S3.
    + intros z Hz. split; [apply not_elem_of_nil|by apply S3].
Qed.

(** ** numbering *)
Definition numbered_as (d : dict orbit nat) (os : list orbit) : Prop := NoDup (dkeys d) /\ d.*2 = seq 0 (length d) /\ forall o, o ∈ dkeys d <-> o ∈ os.
Lemma number_step d os o : numbered_as d os -> numbered_as (if decide (is_Some (dget d o)) then d else dset d o (length d)) (os ++ [o]).
Proof.
  intros (H1 & H2 & H3). destruct (decide (is_Some (dget d o))) as [Hs|Hs].
  - split; [done|]. split; [done|]. intros o'. rewrite H3, elem_of_app, elem_of_list_singleton. split; [by left|]. intros [?| ->]; [done|]. apply H3. by apply elem_of_dkeys.
  - assert (dset d o (length d) = d ++ [(o, length d)]) as ->.
    { assert (o ∉ dkeys d) as Hn by (by rewrite elem_of_dkeys). clear -Hn. generalize (length d) as m. intros m. induction d as [|[k v] d IH]; [done|]. cbn in *. rewrite decide_False by set_solver. f_equal. apply IH. set_solver. }
    split; [|split].
    + unfold dkeys. rewrite fmap_app. cbn. apply NoDup_app. split; [done|]. split; [|apply NoDup_singleton]. intros x Hx ->%elem_of_list_singleton. apply Hs. by apply elem_of_dkeys.
    + rewrite fmap_app, H2, app_length, seq_app. done.
    + intros o'. unfold dkeys. rewrite fmap_app, elem_of_app, elem_of_app. cbn. rewrite !elem_of_list_singleton. change (d.*1) with (dkeys d). by rewrite H3.
Qed.
Lemma numbers_inner (auts : dict orbit name) k j (nodes : list name) : forall d os, (forall x, x ∈ nodes -> is_Some (dget auts (k, j, x))) -> numbered_as d os ->
  exists d', rfold (fun d x => match dget auts (k, j, x) with None => Err KeyError | Some a => Ok (if decide (is_Some (dget d (k, j, a))) then d else dset d (k, j, a) (length d)) end) d nodes = Ok d' /\
    numbered_as d' (os ++ omap (fun x => (fun a => ((k, j, a) : orbit)) <$> dget auts (k, j, x)) nodes).
Proof.
  induction nodes as [|x nodes IH]; intros d os Hn Hd; [exists d; cbn; by rewrite app_nil_r|]. destruct (Hn x) as [a Ea]; [left|]. cbn [rfold omap list_omap]. rewrite Ea. cbn [rbind fmap option_fmap option_map].
  destruct (IH _ (os ++ [(k, j, a)]) ltac:(intros z Hz; apply Hn; by right) (number_step d os (k, j, a) Hd)) as (d' & E & Hd'). exists d'. split; [exact E|]. by rewrite <- app_assoc in Hd'.
Qed.
Definition listed (nets : dict nat (list (list name))) (auts : dict orbit name) (ks : list nat) : list orbit :=
  ks ≫= fun k => imap pair (default [] (dget nets k)) ≫= fun jn => omap (fun x => (fun a => ((k, jn.1, a) : orbit)) <$> dget auts (k, jn.1, x)) (jn.2).
Lemma numbers_ok n (nets : dict nat (list (list name))) (auts : dict orbit name) : (forall k, 2 <= k <= n -> exists l, dget nets k = Some l /\ forall j nodes x, l !! j = Some nodes -> x ∈ nodes -> is_Some (dget auts (k, j, x))) ->
  exists d, orbit_numbers n nets auts = Ok d /\ numbered_as d (listed nets auts (seq 2 (n - 1))).
Proof.
  intros H. unfold orbit_numbers.
  assert (forall ks d os, (forall k, k ∈ ks -> 2 <= k <= n) -> numbered_as d os -> exists d', rfold (fun d k => match dget nets k with None => Err KeyError | Some l => rfold (fun d jn => rfold (fun d x =>
        match dget auts (k, jn.1, x) with None => Err KeyError | Some a => Ok (if decide (is_Some (dget d (k, jn.1, a))) then d else dset d (k, jn.1, a) (length d)) end) d (jn.2)) d (imap pair l) end) d ks = Ok d' /\ numbered_as d' (os ++ listed nets auts ks)) as Hf.
  { induction ks as [|k ks IH]; intros d os Hks Hd; [exists d; cbn; by rewrite app_nil_r|]. cbn [rfold]. destruct (H k) as (l & El & Hl); [apply Hks; left|]. rewrite El.
    assert (forall jl d os, (forall jn, jn ∈ jl -> l !! jn.1 = Some (jn.2)) -> numbered_as d os -> exists d', rfold (fun d jn => rfold (fun d x =>
        match dget auts (k, jn.1, x) with None => Err KeyError | Some a => Ok (if decide (is_Some (dget d (k, jn.1, a))) then d else dset d (k, jn.1, a) (length d)) end) d (jn.2)) d jl = Ok d' /\
        numbered_as d' (os ++ (jl ≫= fun jn => omap (fun x => (fun a => ((k, jn.1, a) : orbit)) <$> dget auts (k, jn.1, x)) (jn.2)))) as Hj.
    { clear -Hl. induction jl as [|[j nodes] jl IH]; intros d os Hin Hd; [exists d; cbn; by rewrite app_nil_r|]. cbn [rfold fst snd].
      destruct (numbers_inner auts k j nodes d os) as (d1 & E1 & Hd1); [|done|]. { intros x. apply Hl. apply (Hin (j, nodes)). left. }
      rewrite E1. cbn [rbind]. destruct (IH d1 _ ltac:(intros jn Hjn; apply Hin; by right) Hd1) as (d2 & E2 & Hd2). exists d2. split; [done|]. by rewrite <- app_assoc in Hd2. }
    destruct (Hj (imap pair l) d os) as (d1 & E1 & Hd1); [|done|]. { intros jn (i & y & -> & Hi)%elem_of_lookup_imap. done. }
    rewrite E1. cbn [rbind]. destruct (IH d1 _ ltac:(intros k' Hk'; apply Hks; by right) Hd1) as (d2 & E2 & Hd2). exists d2. split; [done|]. rewrite <- app_assoc in Hd2.
    unfold listed in *. change ((k :: ks) ≫= ?f) with (f k ++ (ks ≫= f)). cbn beta. by rewrite El. }
  destruct (Hf (seq 2 (n - 1)) [] []) as (d & E & Hd).
  - intros k Hk%elem_of_seq. lia.
  - split; [apply NoDup_nil_2|]. split; [done|]. intros o. done.
  - by exists d.
Qed.
Lemma elem_of_listed (nets : dict nat (list (list name))) (auts : dict orbit name) ks o : o ∈ listed nets auts ks <-> exists k l j nodes x a, k ∈ ks /\ dget nets k = Some l /\ l !! j = Some nodes /\ x ∈ nodes /\ dget auts (k, j, x) = Some a /\ o = (k, j, a).
Proof.
  unfold listed. rewrite elem_of_list_bind. split.
  - intros (k & Ho & Hk). apply elem_of_list_bind in Ho as ([j nodes] & Ho & Hj). apply elem_of_lookup_imap in Hj as (i & y & [= -> ->] & Hi). cbn in Ho.
    apply elem_of_list_omap in Ho as (x & Hx & E). destruct (dget auts (k, i, x)) as [a|] eqn:Ea; [|done]. cbn in E. injection E as <-. destruct (dget nets k) as [l|] eqn:El; [|done]. by exists k, l, i, y, x, a.
  - intros (k & l & j & nodes & x & a & Hk & El & Hj & Hx & Ea & ->). exists k. split; [|done]. rewrite El. apply elem_of_list_bind. exists (j, nodes). split; [|apply elem_of_lookup_imap; by exists j, nodes].
    apply elem_of_list_omap. exists x. split; [done|]. cbn. by rewrite Ea.
Qed.
Lemma ordered_ok (d : dict orbit nat) : d.*2 ≡ₚ seq 0 (length d) -> exists l, ordered_orbits d = Ok l /\ length l = length d /\ forall i o, l !! i = Some (Some o) <-> (o, i) ∈ d.
Proof.
  intros Hp. unfold ordered_orbits.
  assert (NoDup (d.*2)) as Hnd by (rewrite Hp; apply NoDup_seq). assert (forall e, e ∈ d -> e.2 < length d) as Hlt. { intros e He. assert (e.2 ∈ d.*2) as H by (apply elem_of_list_fmap; eauto). rewrite Hp in H. apply elem_of_seq in H. lia. }
  assert (forall f (l : list (option orbit)), (forall e, e ∈ f -> e.2 < length l) -> NoDup (f.*2) -> exists l', rfold (fun l (kv : orbit * nat) => if decide (kv.2 < length l) then Ok (<[kv.2 := Some (kv.1)]> l) else Err IndexError) l f = Ok l' /\ length l' = length l /\
     forall i o, l' !! i = Some (Some o) <-> (o, i) ∈ f \/ (i ∉ f.*2 /\ l !! i = Some (Some o))) as H.
  { clear. induction f as [|[o i] f IH]; intros l Hl Hnd.
    - exists l. split; [done|]. split; [done|]. intros i o. split; [intros; right; split; [apply not_elem_of_nil|done]|]. intros [Hn|[_ ?]]; [by apply elem_of_nil in Hn|done].
    - cbn in Hnd. apply NoDup_cons in Hnd as [Hi Hnd]. cbn [rfold fst snd]. assert (i < length l) as Hil by (apply (Hl (o, i)); left). rewrite decide_True by done. cbn [rbind].
      destruct (IH (<[i := Some o]> l)) as (l' & E & Hlen & H'); [|done|]. { intros e He. rewrite insert_length. apply Hl. by right. }
      exists l'. split; [done|]. rewrite insert_length in Hlen. split; [done|]. intros i' o'. rewrite H', !elem_of_cons. cbn [fmap list_fmap snd]. rewrite not_elem_of_cons. destruct (decide (i' = i)) as [->|Hne].
      + rewrite list_lookup_insert by done. split.
        * intros [?|[_ [= ->]]]; [by left; right|by left; left].
        * intros [[[= ->]|?]|[[? _] _]]; [by right|by left|done].
      + rewrite list_lookup_insert_ne by done. split.
        * intros [?|[? ?]]; [by left; right|by right].
        * intros [[[= -> ->]|?]|[[_ ?] ?]]; [done|by left|by right]. }
  destruct (H d (replicate (length d) None)) as (l & E & Hlen & Hl); [intros e He; rewrite replicate_length; by apply Hlt|done|].
  rewrite replicate_length in Hlen. exists l. split; [done|]. split; [done|]. intros i o. rewrite Hl. split; [|by left]. intros [?|[_ Hr]]; [done|]. by apply lookup_replicate in Hr as [? _].
Qed.

(** ** list_orbits *)
Lemma list_orbits_ok auts : forall k, 
  (forall o, o ∈ default [] (dget (list_orbits auts) k) <-> exists j x a, ((k, j, x), a) ∈ auts /\ o = (k, j, a)) /\ NoDup (default [] (dget (list_orbits auts) k)) /\
  (is_Some (dget (list_orbits auts) k) <-> exists j x a, ((k, j, x), a) ∈ auts).
Proof.
  unfold list_orbits.
  assert (forall f (d : dict nat (list orbit)) k, NoDup (default [] (dget d k)) ->
     let d' := foldl (fun d (kv : orbit * name) => let k := kv.1.1.1 in let o : orbit := (k, kv.1.1.2, kv.2) in let l := default [] (dget d k) in dset d k (if decide (o ∈ l) then l else l ++ [o])) d f in
     (forall o, o ∈ default [] (dget d' k) <-> o ∈ default [] (dget d k) \/ exists j x a, ((k, j, x), a) ∈ f /\ o = (k, j, a)) /\ NoDup (default [] (dget d' k)) /\
     (is_Some (dget d' k) <-> is_Some (dget d k) \/ exists j x a, ((k, j, x), a) ∈ f)) as H.
  { induction f as [|[[[k0 j0] x0] a0] f IH]; intros d k Hnd; cbn zeta.
    - cbn [foldl]. split; [|split; [done|]].
      + intros o. split; [by left|]. intros [?|(j & x & a & Hn & _)]; [done|]. by apply elem_of_nil in Hn.
      + split; [by left|]. intros [?|(j & x & a & Hn)]; [done|]. by apply elem_of_nil in Hn.
    - cbn [foldl fst snd]. cbn zeta. set (l0 := default [] (dget d k0)). set (l1 := if decide ((k0, j0, a0) ∈ l0) then l0 else l0 ++ [(k0, j0, a0)]).
      assert (forall o, o ∈ l1 <-> o ∈ l0 \/ o = (k0, j0, a0)) as Hl1. { intros o. unfold l1. destruct (decide _); [split; [by left|intros [?| ->]; done]|]. by rewrite elem_of_app, elem_of_list_singleton. }
      destruct (IH (dset d k0 l1) k) as (I1 & I2 & I3).
      { rewrite dget_dset. destruct (decide (k = k0)) as [->|]; [|done]. cbn. unfold l1. destruct (decide _); [done|]. apply NoDup_app. split; [done|]. split; [|apply NoDup_singleton]. by intros z Hz ->%elem_of_list_singleton. }
      split; [|split; [exact I2|]].
      + intros o. rewrite I1, dget_dset. destruct (decide (k = k0)) as [->|Hne]; cbn [default].
        * rewrite Hl1. split.
          -- intros [[?| ->]|(j & x & a & Hin & ->)]; [by left|right; exists j0, x0, a0; split; [left|done]|right; exists j, x, a; split; [by right|done]].
          -- intros [?|(j & x & a & [[= -> -> ->]|Hin]%elem_of_cons & ->)]; [by left; left|by left; right|right; by exists j, x, a].
        * split; (intros [?|(j & x & a & Hin & ->)]; [by left|right; exists j, x, a; split; [|done]]); [by right|]. apply elem_of_cons in Hin as [[= -> -> -> ->]|?]; done.
      + rewrite I3, dget_dset. destruct (decide (k = k0)) as [->|Hne].
        * split; [intros _; right; exists j0, x0, a0; left|]. intros _. left. by eexists.
        * split; (intros [?|(j & x & a & Hin)]; [by left|right; exists j, x, a]); [by right|]. apply elem_of_cons in Hin as [[= -> -> -> ->]|?]; done. }
  intros k. destruct (H auts [] k) as (H1 & H2 & H3); [apply NoDup_nil_2|]. split; [|split; [exact H2|]].
  - intros o. rewrite H1. split; [|by right]. intros [Hn|?]; [|done]. by apply elem_of_nil in Hn.
  - rewrite H3. split; [|by right]. intros [[? ?]|?]; done.
Qed.

(** ** definitely independent equations *)
Lemma rest_spec (eqs : list (nat * (eqkey * list orbit))) i s : forall o,
  o ∈ foldl (fun s (je : nat * (eqkey * list orbit)) => if decide (i = je.1) then s else sdiff s (eq_set (je.2))) s eqs <-> o ∈ s /\ forall j e, (j, e) ∈ eqs -> j <> i -> o ∉ eq_set e.
Proof.
  revert s. induction eqs as [|[j e] eqs IH]; intros s o; cbn [foldl fst snd].
  - split; [intros; split; [done|]; intros j e Hn; by apply elem_of_nil in Hn|by intros [? _]].
  - rewrite IH. destruct (decide (i = j)) as [->|Hne].
    + split; intros [Hs H]; (split; [done|]); intros j' e' Hin; [|apply H; by right]. apply elem_of_cons in Hin as [[= -> ->]|Hin]; [done|]. by apply H.
    + rewrite elem_of_sdiff. split.
      * intros [[Hs He] H]. split; [done|]. intros j' e' [[= -> ->]|Hin]%elem_of_cons; [done|by apply H].
      * intros [Hs H]. split; [split; [done|]; apply (H j e); [left|done]|]. intros j' e' Hin. apply H. by right.
Qed.
Lemma independent_ok (eqs : dict eqkey (list orbit)) : NoDup (dkeys eqs) -> exists ind und, definitely_independent eqs = (ind, und, eqs) /\ ind ++ und ≡ₚ dkeys eqs /\
  forall k os, (k, os) ∈ eqs -> k ∈ ind <-> (forall o, o ∈ key_orbits k -> o.1.1 = 2) \/ exists o, o ∈ os ++ key_orbits k /\ forall k' os', (k', os') ∈ eqs -> k' <> k -> o ∉ os' ++ key_orbits k'.
Proof.
  intros Hnd. unfold definitely_independent. set (two := fun k => forallb (fun o : orbit => bool_decide (o.1.1 = 2)) (key_orbits k)).
  set (ind0 := omap _ eqs).
  assert (forall k, k ∈ ind0 <-> k ∈ dkeys eqs /\ two k = true) as Hi0.
  { intros k. unfold ind0. rewrite elem_of_list_omap. split.
    - intros ([k' os] & Hin & E). cbn in E. fold (two k') in E. destruct (two k') eqn:E'; [|done]. injection E as ->. split; [apply elem_of_list_fmap; by exists (k, os)|done].
    - intros [Hin E]. apply elem_of_list_fmap in Hin as ([k' os] & Ek & Hin). cbn in Ek. subst k'. exists (k, os). split; [done|]. cbn. fold (two k). by rewrite E. }
  assert (NoDup ind0) as Hn0.
  { unfold ind0. clear -Hnd. induction eqs as [|[k os] eqs IH]; [apply NoDup_nil_2|]. cbn in Hnd. apply NoDup_cons in Hnd as [Hk Hnd]. cbn [omap list_omap fst]. destruct (forallb _ (key_orbits k)); [|by apply IH]. apply NoDup_cons. split; [|by apply IH].
    intros Hin. apply Hk. apply elem_of_list_omap in Hin as ([k' os'] & Hin & E). cbn [fst] in E. destruct (forallb _ _); [|done]. injection E as ->. apply elem_of_list_fmap. by exists (k, os'). }
  set (all := imap pair eqs). pose (rest := fun (ie : nat * (eqkey * list orbit)) => foldl (fun s (je : nat * (eqkey * list orbit)) => if decide (ie.1 = je.1) then s else sdiff s (eq_set (je.2))) (eq_set (ie.2)) all).
  assert (forall j e, (j, e) ∈ all <-> eqs !! j = Some e) as Hall.
  { intros j e. unfold all. rewrite elem_of_lookup_imap. split; [intros (i & y & [= -> ->] & ?); done|intros; by exists j, e]. }
  pose (alone := fun (k : eqkey) (os : list orbit) => exists o, o ∈ os ++ key_orbits k /\ forall k' os', (k', os') ∈ eqs -> k' <> k -> o ∉ os' ++ key_orbits k').
  assert (forall e (o : orbit), o ∈ eq_set e <-> o ∈ e.2 ++ key_orbits (e.1)) as Hes. { intros e o. unfold eq_set. by rewrite elem_of_sunion, elem_of_app. }
  assert (forall i k os, (i, (k, os)) ∈ all -> (rest (i, (k, os)) <> [] <-> alone k os)) as Hrest.
  { intros i k os Hi%Hall. assert (forall o, o ∈ rest (i, (k, os)) <-> o ∈ os ++ key_orbits k /\ forall k' os', (k', os') ∈ eqs -> k' <> k -> o ∉ os' ++ key_orbits k') as Hro.
    { intros o. unfold rest. cbn [fst snd]. rewrite rest_spec, Hes. cbn. split; intros [Ho H]; (split; [done|]).
      - intros k' os' (j & Hj)%elem_of_list_lookup_1 Hne. rewrite <- (Hes (k', os')). apply (H j); [by apply Hall|]. intros ->. rewrite Hi in Hj. injection Hj as -> ->. done.
      - intros j [k' os'] Hj%Hall Hne. rewrite Hes. cbn. apply (H k' os'); [by eapply elem_of_list_lookup_2|]. intros ->. apply Hne. eapply (NoDup_lookup (dkeys eqs)); [done| |]; unfold dkeys; rewrite list_lookup_fmap; [by rewrite Hj|by rewrite Hi]. }
    unfold alone. destruct (rest (i, (k, os))) as [|o r] eqn:Er.
    - split; [done|]. intros (o & Ho). apply Hro in Ho. by apply elem_of_nil in Ho.
    - split; [|done]. intros _. exists o. apply Hro. left. }
  assert (forall todo dn ind und, all = dn ++ todo -> NoDup (ind ++ und) -> (forall k, k ∈ ind ++ und -> k ∈ dkeys eqs) ->
     (forall k, two k = true -> k ∈ dkeys eqs -> k ∈ ind) -> (forall k, k ∈ und -> two k = false) ->
     (forall i k os, (i, (k, os)) ∈ dn -> (k ∈ ind <-> two k = true \/ alone k os) /\ k ∈ ind ++ und) ->
     (forall i k os, (i, (k, os)) ∈ todo -> (k ∈ ind <-> two k = true) /\ k ∉ und) ->
     exists ind' und', foldl (fun (s : list eqkey * list eqkey) (ie : nat * (eqkey * list orbit)) => if decide (ie.2.1 ∈ s.1) then s else
        let r := rest ie in match r with [] => (s.1, s.2 ++ [ie.2.1]) | _ => (s.1 ++ [ie.2.1], s.2) end) (ind, und) todo = (ind', und') /\ NoDup (ind' ++ und') /\ (forall k, k ∈ ind' ++ und' -> k ∈ dkeys eqs) /\
        forall i k os, (i, (k, os)) ∈ all -> (k ∈ ind' <-> two k = true \/ alone k os) /\ k ∈ ind' ++ und') as Hf.
  { induction todo as [|[i [k os]] todo IH]; intros dn ind und Ea Hn Hks Ht Hu Hd Htd.
    { exists ind, und. rewrite app_nil_r in Ea. subst dn. done. }
    assert ((i, (k, os)) ∈ all) as Hi by (rewrite Ea; set_solver). destruct (Htd i k os) as [Hk1 Hk2]; [left|]. pose proof (Hrest i k os Hi) as Hr.
    assert (k ∈ dkeys eqs) as Hkk. { apply Hall, elem_of_list_lookup_2 in Hi. apply elem_of_list_fmap. by exists (k, os). }
    assert (forall i' k' os', (i', (k', os')) ∈ todo -> k' <> k) as Hlater.
    { intros i' k' os' Hin ->. assert (NoDup (all.*2.*1)) as Hna. { replace (all.*2.*1) with (dkeys eqs); [done|]. unfold all, dkeys. f_equal. clear. apply list_eq. intros j. rewrite list_lookup_fmap, list_lookup_imap. by destruct (eqs !! j). }
      rewrite Ea in Hna. rewrite !fmap_app in Hna. apply NoDup_app in Hna as (_ & _ & Hna). cbn in Hna. apply NoDup_cons in Hna as [Hna _]. apply Hna. apply elem_of_list_fmap. exists (k, os'). split; [done|]. apply elem_of_list_fmap. by exists (i', (k, os')). }
    assert (forall i' k' os', (i', (k', os')) ∈ dn -> k' <> k) as Hearlier.
    { intros i' k' os' Hin ->. assert (NoDup (all.*2.*1)) as Hna. { replace (all.*2.*1) with (dkeys eqs); [done|]. unfold all, dkeys. f_equal. clear. apply list_eq. intros j. rewrite list_lookup_fmap, list_lookup_imap. by destruct (eqs !! j). }
      rewrite Ea in Hna. rewrite !fmap_app in Hna. apply NoDup_app in Hna as (_ & Hna & _). apply (Hna k); [|left]. apply elem_of_list_fmap. exists (k, os'). split; [done|]. apply elem_of_list_fmap. by exists (i', (k, os')). }
    cbn [foldl fst snd]. destruct (decide (k ∈ ind)) as [Hin|Hin].
    - apply (IH (dn ++ [(i, (k, os))])); try done; [by rewrite <- app_assoc| |].
      + intros i' k' os' [H'|[= -> -> ->]%elem_of_list_singleton]%elem_of_app; [by apply (Hd i')|]. split; [|set_solver]. split; [|done]. intros _. left. by apply Hk1.
      + intros i' k' os' H'. apply (Htd i' k' os'). by right.
    - assert (two k = false) as Ht0. { destruct (two k) eqn:E; [|done]. exfalso. apply Hin. by apply Hk1. }
      cbn zeta. destruct (rest (i, (k, os))) as [|o r] eqn:Er.
      + apply (IH (dn ++ [(i, (k, os))])); try done.
        * by rewrite <- app_assoc.
        * rewrite app_assoc. apply NoDup_app. split; [done|]. split; [|apply NoDup_singleton]. intros z Hz ->%elem_of_list_singleton. by apply elem_of_app in Hz as [?|?].
        * intros z. rewrite app_assoc, elem_of_app, elem_of_list_singleton. intros [?| ->]; auto.
        * intros z [?| ->%elem_of_list_singleton]%elem_of_app; auto.
        * intros i' k' os' [H'|[= -> -> ->]%elem_of_list_singleton]%elem_of_app.
          -- destruct (Hd i' k' os' H') as [? ?]. split; [done|set_solver].
          -- split; [|set_solver]. split; [done|]. intros [?|Hal]; [congruence|]. by apply Hr in Hal.
        * intros i' k' os' H'. destruct (Htd i' k' os') as [? ?]; [by right|]. split; [done|]. rewrite not_elem_of_app, elem_of_list_singleton. split; [done|]. by apply (Hlater i' k' os').
      + apply (IH (dn ++ [(i, (k, os))])); try done.
        * by rewrite <- app_assoc.
        * rewrite <- app_assoc. apply NoDup_app in Hn as (N1 & N2 & N3). apply NoDup_app. split; [done|]. split.
          -- intros z Hz [->|Hz']%elem_of_cons; [done|]. by apply (N2 z).
          -- apply NoDup_cons. split; [done|done].
        * intros z. rewrite !elem_of_app, elem_of_list_singleton. intros [[?| ->]|?]; [apply Hks; set_solver|done|apply Hks; set_solver].
        * intros z Hz1 Hz2. apply elem_of_app. left. by apply Ht.
        * intros i' k' os' [H'|[= -> -> ->]%elem_of_list_singleton]%elem_of_app.
          -- destruct (Hd i' k' os' H') as [H1 H2]. split; [|set_solver]. rewrite elem_of_app, elem_of_list_singleton, H1. split; [|by left]. intros [?| ->]; [done|]. by destruct (Hearlier i' k os' H').
          -- split; [|set_solver]. split; [intros _; right; by apply Hr|]. set_solver.
        * intros i' k' os' H'. destruct (Htd i' k' os') as [H1 H2]; [by right|]. split; [|done]. rewrite elem_of_app, elem_of_list_singleton, H1. split; [|by left]. intros [?| ->]; [done|]. by destruct (Hlater i' k os' H'). }
  destruct (Hf all [] ind0 []) as (ind & und & E & Hn & Hks & Hd); try done.
  - by rewrite app_nil_r.
  - intros k. rewrite app_nil_r. intros [? _]%Hi0. done.
  - intros k H1 H2. by apply Hi0.
  - intros k Hk. by apply elem_of_nil in Hk.
  - intros i k os Hk. by apply elem_of_nil in Hk.
  - intros i k os Hk. split; [|apply not_elem_of_nil]. rewrite Hi0. split; [by intros [_ ?]|]. intros ?. split; [|done]. apply Hall, elem_of_list_lookup_2 in Hk. apply elem_of_list_fmap. by exists (k, os).
  - exists ind, und. cbn zeta in E. unfold rest in E. cbn zeta. rewrite E. cbn [fst snd]. split; [done|]. split.
    + apply NoDup_Permutation; [done..|]. intros k. split; [apply Hks|]. intros ([k' os] & -> & Hk)%elem_of_list_fmap. apply elem_of_list_lookup in Hk as [i Hi]. by apply (Hd i k' os), Hall.
    + intros k os (i & Hi)%elem_of_list_lookup_1. destruct (Hd i k os) as [H' _]; [by apply Hall|]. rewrite H'. unfold two. rewrite forallb_forall. setoid_rewrite <- elem_of_list_In. setoid_rewrite bool_decide_eq_true. done.
Qed.
