(** * Neighbours, degrees, strengths, edges, equality *)
From Verif Require Export NetHist.

Definition good (n : mlnet) : Prop := wfS n /\ wfL n.
Lemma hist_good asp noe dir fi h n : hist asp noe dir fi h n -> good n.
Proof. intros H%hist_inv. split; apply H. Qed.
Lemma reachable_good n : reachable n -> good n.
Proof. intros (? & ? & ? & ? & ? & H). by eapply hist_good. Qed.

Lemma weight_rd n a b : length a = length b -> weight n a b = rd n a b.
Proof.
  intros Hl. unfold weight, get_link. rewrite link_to_nodes_interleave by done.
  unfold rd, lnk, adj. destruct (dget (nett n) a) as [row|]; simpl; [|done]. by destruct (dget row b).
Qed.

Lemma IColon_names (l : list name) : IColon ∉ odds (INm <$> l).
Proof.
  unfold odds. intros Hc. apply elem_of_list_lookup in Hc as [q Hq].
  rewrite lookup_evens in Hq. apply elem_of_list_lookup_2 in Hq.
  assert (IColon ∈ INm <$> l) as Hin by (destruct l; [by apply elem_of_nil in Hq|right; done]).
  apply elem_of_list_fmap in Hin as (? & ? & ?). done.
Qed.
Lemma evens_fmap {A B} (f : A -> B) l : evens (f <$> l) = f <$> evens l.
Proof. apply list_eq. intros i. by rewrite list_lookup_fmap, !lookup_evens, list_lookup_fmap. Qed.
Lemma odds_fmap {A B} (f : A -> B) l : odds (f <$> l) = f <$> odds l.
Proof. apply list_eq. intros i. by rewrite list_lookup_fmap, !lookup_odds, list_lookup_fmap. Qed.

Lemma getitem_full_names n link : getitem_full n (INm <$> link) = Ok (GWeight (get_link n link)).
Proof.
  unfold getitem_full. rewrite evens_fmap, mapM_idx_names.
  rewrite decide_False by apply IColon_names. by rewrite mapM_idx_names.
Qed.

Lemma getitem_link n link : length link = 2 * S (aspects n) ->
  getitem n (INm <$> link) = Ok (GWeight (get_link n link)).
Proof.
  intros Hl. unfold getitem. rewrite fmap_length. rewrite decide_False by lia.
  rewrite decide_True by done. apply getitem_full_names.
Qed.

Lemma lookup_interleave {A} (a b : list A) k : length a = length b ->
  interleave a b !! (2 * k) = a !! k /\ interleave a b !! (2 * k + 1) = b !! k.
Proof.
  intros Hl. rewrite <- lookup_evens, <- lookup_odds.
  by rewrite evens_interleave, odds_interleave.
Qed.
Lemma names_link_inv asp item a b : names_link asp item a b ->
  length a = S asp /\ length b = S asp /\
  (length item = 2 * S asp /\ item = interleave a b \/
   length item = S asp + 1 /\ short_link_to_link item = interleave a b).
Proof.
  intros H. destruct H as [item a b H1 Ha Hb H2 H3|i j ss H].
  - split_and!; [done|done|]. left. split; [done|].
    destruct (even_split item (S asp) H1) as (_ & _ & E).
    assert (a = evens item) as ->. { apply list_eq. intros k. by rewrite H2, lookup_evens. }
    assert (b = odds item) as ->. { apply list_eq. intros k. by rewrite H3, lookup_odds. }
    done.
  - simpl. split_and!; [lia|lia|]. right. split; [lia|]. apply short_link_spec.
Qed.
Lemma names_link_full asp a b : length a = S asp -> length b = S asp -> names_link asp (interleave a b) a b.
Proof.
  intros Ha Hb. apply names_full; [rewrite interleave_length; lia|done|done| |];
    intros k; destruct (lookup_interleave a b k ltac:(lia)); done.
Qed.
Lemma short_link_fmap {A B} (f : A -> B) l : short_link_to_link (f <$> l) = f <$> short_link_to_link l.
Proof.
  unfold short_link_to_link. rewrite fmap_app, <- fmap_take, <- fmap_drop. f_equal.
  generalize (drop 2 l). intros l'. induction l' as [|x l' IH]; [done|]. rewrite fmap_cons. cbn [dup_each]. rewrite IH. done.
Qed.
Lemma getitem_names n item a b : names_link (aspects n) item a b ->
  getitem n (INm <$> item) = Ok (GWeight (rd n a b)).
Proof.
  intros H. destruct (names_link_inv _ _ _ _ H) as (Ha & Hb & [[Hl ->]|[Hl Hs]]).
  - rewrite getitem_link by done. f_equal. f_equal. rewrite <- weight_rd by lia. done.
  - destruct (decide (aspects n = 0)) as [H0|H0].
    + rewrite getitem_link by lia. f_equal. f_equal. rewrite <- weight_rd by lia. unfold weight.
      rewrite <- Hs. destruct item as [|x [|y [|]]]; simpl in Hl; try lia. done.
    + unfold getitem. rewrite fmap_length, !decide_False by lia. rewrite decide_True by lia.
      rewrite decide_False.
      * rewrite short_link_fmap, Hs, getitem_full_names. f_equal. f_equal. rewrite <- weight_rd by lia. done.
      * rewrite <- fmap_drop. intros (? & ? & _)%elem_of_list_fmap. done.
Qed.
Lemma reads_rd n a b w : length a = S (aspects n) -> length b = S (aspects n) ->
  reads n a b w <-> w = rd n a b.
Proof.
  intros Ha Hb. split.
  - intros (item & Hi & Hr). rewrite (getitem_names n item a b Hi) in Hr. by injection Hr as ->.
  - intros ->. exists (interleave a b). pose proof (names_link_full _ a b Ha Hb). split; [done|].
    by apply getitem_names.
Qed.
Lemma reads_weight n a b : length a = S (aspects n) -> length b = S (aspects n) ->
  reads n a b (weight n a b).
Proof. intros. apply reads_rd; [done|done|]. apply weight_rd. lia. Qed.

Lemma rd_noEdge n a b : good n -> rd n a b <> noEdge n <-> is_Some (lnk n a b).
Proof.
  intros [HS HL]. unfold rd. destruct (lnk n a b) as [w|] eqn:E; simpl.
  - split; [eauto|]. intros _ ->. by apply (wfL_noe _ HL a b).
  - split; [done|]. by intros [? ?].
Qed.

Lemma lnk_lengths n a b : good n -> is_Some (lnk n a b) -> length a = S (aspects n) /\ length b = S (aspects n).
Proof.
  intros [HS HL] [w Hw]. destruct (wfL_present _ HL _ _ _ Hw).
  split; by eapply present_length.
Qed.

Lemma linked_lnk n a b : good n -> linked n a b <-> is_Some (lnk n a b).
Proof.
  intros Hg. split.
  - intros (Ha & Hb & w & Hr & Hne). apply reads_rd in Hr; [|done|done]. subst.
    by apply rd_noEdge in Hne.
  - intros Hs. destruct (lnk_lengths _ _ _ Hg Hs) as [Ha Hb]. split_and!; [done|done|].
    exists (rd n a b). rewrite reads_rd by done. split; [done|]. by apply rd_noEdge.
Qed.

(** ** Neighbour iteration *)
Lemma dims_match_spec ds b : length ds = length b ->
  dims_match ds b = true <-> forall k x, ds !! k = Some (Some x) -> b !! k = Some x.
Proof.
  revert b. induction ds as [|d ds IH]; intros [|y b] Hl; simpl in *; try lia.
  - split; [|done]. intros _ k x. by rewrite lookup_nil.
  - injection Hl as Hl. destruct d as [z|].
    + rewrite andb_true_iff, bool_decide_eq_true, (IH b Hl). split.
      * intros [-> H] [|k] x Hk; simpl in *; [by simplify_eq|by apply H].
      * intros H. split; [specialize (H 0 z eq_refl); simpl in H; by simplify_eq|].
        intros k x Hk. by apply (H (S k) x).
    + rewrite (IH b Hl). split.
      * intros H [|k] x Hk; simpl in *; [done|by apply H].
      * intros H k x Hk. by apply (H (S k) x).
Qed.

Lemma elem_of_dims_filter ds l b : b ∈ dims_filter ds l <->
  b ∈ l /\ match ds with None => True | Some d => dims_match d b = true end.
Proof. destruct ds; simpl; [rewrite elem_of_list_filter|]; tauto. Qed.
Lemma NoDup_dims_filter ds l : NoDup l -> NoDup (dims_filter ds l).
Proof. destruct ds; simpl; [apply NoDup_filter|done]. Qed.

Lemma dims_matches n ds b : dims_ok n ds -> length b = S (aspects n) ->
  match ds with None => True | Some d => dims_match d b = true end <-> matches ds b.
Proof.
  destruct ds as [d|]; simpl; [|done]. intros Hd Hb. apply dims_match_spec. lia.
Qed.

Lemma iter_out_exact n a ds : good n -> dims_ok n ds ->
  lists_exactly (iter_out n a ds) (fun b => linked n a b /\ matches ds b).
Proof.
  intros Hg Hd. split.
  - apply NoDup_dims_filter. apply Hg.
  - intros b. unfold iter_out. rewrite elem_of_dims_filter, elem_of_dkeys. fold (lnk n a b).
    rewrite linked_lnk by done. split.
    + intros [Hs Hm]. split; [done|]. destruct (lnk_lengths _ _ _ Hg Hs). by apply (dims_matches n).
    + intros [Hs Hm]. split; [done|]. destruct (lnk_lengths _ _ _ Hg Hs). by apply (dims_matches n).
Qed.

Lemma lists_exactly_iff {A} (L : list A) (P Q : A -> Prop) :
  (forall x, P x <-> Q x) -> lists_exactly L P -> lists_exactly L Q.
Proof. intros H [H1 H2]. split; [done|]. intros x. by rewrite H2. Qed.

Lemma iter_in_exact n a ds : good n -> dims_ok n ds ->
  lists_exactly (iter_in n a ds) (fun b => linked n b a /\ matches ds b).
Proof.
  intros Hg Hd. unfold iter_in. destruct (directed n) eqn:Hdir.
  - split.
    + apply NoDup_dims_filter. apply Hg.
    + intros b. unfold iter_in_dir. rewrite elem_of_dims_filter, elem_of_dkeys. fold (rlnk n a b).
      rewrite linked_lnk by done. rewrite (wfL_rev n (proj2 Hg) Hdir). split.
      * intros [Hs Hm]. split; [done|]. destruct (lnk_lengths _ _ _ Hg Hs). by apply (dims_matches n).
      * intros [Hs Hm]. split; [done|]. destruct (lnk_lengths _ _ _ Hg Hs). by apply (dims_matches n).
  - eapply lists_exactly_iff; [|by apply iter_out_exact]. intros b. simpl.
    rewrite !linked_lnk by done. by rewrite (wfL_sym n (proj2 Hg) Hdir).
Qed.

Lemma iter_total_exact n a ds : good n -> dims_ok n ds ->
  lists_exactly (iter_total n a ds) (fun b => (linked n a b \/ linked n b a) /\ matches ds b).
Proof.
  intros Hg Hd. unfold iter_total. destruct (iter_out_exact n a ds Hg Hd) as [Hnd Ho].
  destruct (iter_in_exact n a ds Hg Hd) as [Hnd2 Hi].
  destruct (directed n) eqn:Hdir.
  - unfold iter_total_dir. split.
    + apply NoDup_app. split_and!; [done| |by apply NoDup_filter].
      intros b Hb [Hb' _]%elem_of_list_filter. apply lin_false in Hb'. done.
    + intros b. rewrite elem_of_app, elem_of_list_filter, lin_false, Ho, Hi.
      destruct (decide (b ∈ iter_out n a ds)) as [H|H]; rewrite Ho in H; tauto.
  - eapply lists_exactly_iff; [|by apply iter_out_exact]. intros b. simpl.
    rewrite !linked_lnk by done. rewrite (wfL_sym n (proj2 Hg) Hdir b a). tauto.
Qed.

Lemma lists_exactly_perm {A} (L L' : list A) P : lists_exactly L P -> lists_exactly L' P -> L ≡ₚ L'.
Proof. intros [H1 H2] [H3 H4]. apply NoDup_same_perm; [done|done|]. intros x. by rewrite H2, H4. Qed.
Lemma lists_exactly_length {A} (L L' : list A) P : lists_exactly L P -> lists_exactly L' P -> length L = length L'.
Proof. intros H1 H2. by rewrite (lists_exactly_perm _ _ _ H1 H2). Qed.

(** ** Degrees *)
Lemma degree_out_iter n a ds : degree_out n a ds = Z.of_nat (length (iter_out n a ds)).
Proof.
  unfold degree_out. destruct ds; [done|]. unfold iter_out, adj. simpl.
  destruct (dget (nett n) a); simpl; [|done]. by rewrite dkeys_length.
Qed.
Lemma degree_in_iter n a ds : degree_in n a ds = Z.of_nat (length (iter_in n a ds)).
Proof.
  unfold degree_in, iter_in. destruct (directed n) eqn:Hd; [|apply degree_out_iter].
  destruct ds; [done|]. unfold iter_in_dir, adj. simpl.
  destruct (dget (rnet n) a); simpl; [|done]. by rewrite dkeys_length.
Qed.
Lemma degree_out_exact n a ds L : good n -> dims_ok n ds ->
  lists_exactly L (fun b => linked n a b /\ matches ds b) -> degree_out n a ds = Z.of_nat (length L).
Proof.
  intros Hg Hd HL. rewrite degree_out_iter. f_equal.
  eapply lists_exactly_length; [by apply iter_out_exact|done].
Qed.
Lemma degree_in_exact n a ds L : good n -> dims_ok n ds ->
  lists_exactly L (fun b => linked n b a /\ matches ds b) -> degree_in n a ds = Z.of_nat (length L).
Proof.
  intros Hg Hd HL. rewrite degree_in_iter. f_equal.
  eapply lists_exactly_length; [by apply iter_in_exact|done].
Qed.
Lemma degree_und_exact n a ds L : good n -> dims_ok n ds -> directed n = false ->
  lists_exactly L (fun b => (linked n a b \/ linked n b a) /\ matches ds b) -> degree n a ds = Z.of_nat (length L).
Proof.
  intros Hg Hd Hdir HL. unfold degree. rewrite Hdir. apply degree_out_exact; [done|done|].
  eapply lists_exactly_iff; [|exact HL]. intros b. simpl. rewrite !linked_lnk by done.
  rewrite (wfL_sym n (proj2 Hg) Hdir b a). tauto.
Qed.
Lemma degree_dims_exact n a ds L : good n -> dims_ok n (Some ds) ->
  lists_exactly L (fun b => (linked n a b \/ linked n b a) /\ matches (Some ds) b) ->
  degree n a (Some ds) = Z.of_nat (length L).
Proof.
  intros Hg Hd HL. destruct (directed n) eqn:Hdir; [|by apply degree_und_exact].
  unfold degree. rewrite Hdir. f_equal. eapply lists_exactly_length; [|done].
  by apply iter_total_exact.
Qed.

(** ** Strengths *)
Lemma linked_weight n a b (f : nl -> Z) : good n -> linked n a b ->
  reads n a b (f b) -> weight n a b = f b.
Proof.
  intros Hg (Ha & Hb & _) Hr. apply reads_rd in Hr; [|done|done]. rewrite weight_rd by lia. done.
Qed.
Lemma strength_out_exact n a ds L (f : nl -> Z) : good n -> dims_ok n ds ->
  lists_exactly L (fun b => linked n a b /\ matches ds b) ->
  (forall b, b ∈ L -> reads n a b (f b)) -> strength_out n a ds = zsumf f L.
Proof.
  intros Hg Hd HL Hf. unfold strength_out.
  rewrite (zsumf_perm _ _ L).
  - apply zsumf_ext. intros b Hb. destruct HL as [_ HL]. apply linked_weight; [done|by apply HL|by apply Hf].
  - eapply lists_exactly_perm; [by apply iter_out_exact|done].
Qed.
Lemma strength_in_exact n a ds L (f : nl -> Z) : good n -> dims_ok n ds ->
  lists_exactly L (fun b => linked n b a /\ matches ds b) ->
  (forall b, b ∈ L -> reads n b a (f b)) -> strength_in n a ds = zsumf f L.
Proof.
  intros Hg Hd HL Hf. unfold strength_in. destruct (directed n) eqn:Hdir.
  - rewrite (zsumf_perm _ _ L).
    + apply zsumf_ext. intros b Hb. destruct HL as [_ HL]. 
      assert (linked n b a) as (H1 & H2 & _) by by apply HL.
      specialize (Hf b Hb). apply reads_rd in Hf; [|done|done]. rewrite weight_rd by lia. done.
    + eapply lists_exactly_perm; [by apply iter_in_exact|done].
  - apply strength_out_exact; [done|done| |].
    + eapply lists_exactly_iff; [|exact HL]. intros b. simpl. rewrite !linked_lnk by done.
      by rewrite (wfL_sym n (proj2 Hg) Hdir).
    + intros b Hb. specialize (Hf b Hb). assert (linked n b a) as (H1 & H2 & _) by by apply HL.
      apply reads_rd in Hf; [|done|done]. apply reads_rd; [done|done|]. rewrite Hf.
      unfold rd. by rewrite (wfL_sym n (proj2 Hg) Hdir).
Qed.

(** ** Total degree counter of directed networks *)
Definition nbrs (n : mlnet) (a : nl) : Z := Z.of_nat (length (iter_total n a None)).
Lemma lists_exactly_add {A} (L L' : list A) (P Q : A -> Prop) c :
  lists_exactly L P -> lists_exactly L' Q -> ~ P c -> (forall x, Q x <-> P x \/ x = c) ->
  length L' = S (length L).
Proof.
  intros HL HL' Hc HQ. change (S (length L)) with (length (c :: L)).
  eapply lists_exactly_length; [exact HL'|]. destruct HL as [Hnd HL]. split.
  - apply NoDup_cons. split; [by rewrite HL|done].
  - intros x. rewrite elem_of_cons, HL, HQ. tauto.
Qed.

Definition und (n : mlnet) (a b : nl) : Prop := is_Some (lnk n a b) \/ is_Some (lnk n b a).
Lemma nbrs_exact n a : good n -> lists_exactly (iter_total n a None) (und n a).
Proof.
  intros Hg. eapply lists_exactly_iff; [|apply (iter_total_exact n a None Hg I)].
  intros b. simpl. unfold und. rewrite !linked_lnk by done. tauto.
Qed.

Lemma is_Some_None {A} (o : option A) : o = None <-> ~ is_Some o.
Proof. rewrite eq_None_not_Some. done. Qed.

Lemma nbrs_change n n' a b w x : good n -> good n' -> directed n = true ->
  (forall x y, lnk n' x y = if decide (hit true a b x y) then (if decide (w = noEdge n) then None else Some w) else lnk n x y) ->
  (nbrs n' x = nbrs n x + (if decide (w = noEdge n)
      then (if decide (is_Some (lnk n a b) /\ (a = b \/ lnk n b a = None) /\ (x = a \/ x = b)) then -1 else 0)
      else (if decide (lnk n a b = None /\ (a = b \/ lnk n b a = None) /\ (x = a \/ x = b)) then 1 else 0)))%Z.
Proof.
  intros Hg Hg' Hdir Hl. unfold nbrs.
  pose proof (nbrs_exact n x Hg) as H1. pose proof (nbrs_exact n' x Hg') as H2.
  assert (forall y z, is_Some (lnk n' y z) <->
     if decide (w = noEdge n) then is_Some (lnk n y z) /\ ~ (y = a /\ z = b) else is_Some (lnk n y z) \/ (y = a /\ z = b)) as Hs.
  { intros y z. rewrite Hl. destruct (decide (hit true a b y z)) as [[[-> ->]|[? _]]|Hn]; [|done|].
    - destruct (decide (w = noEdge n)); [|naive_solver]. split; [by intros [? ?]|]. intros [_ []]. done.
    - assert (~ (y = a /\ z = b)) by (intros [-> ->]; apply Hn; by left).
      destruct (decide (w = noEdge n)); tauto. }
  clear Hl. destruct (decide (w = noEdge n)) as [->|Hw].
  - destruct (decide _) as [(Hab & Hba & Hx)|Hno].
    + (* lost the neighbour c *)
      set (c := if decide (x = a) then b else a).
      assert (length (iter_total n x None) = S (length (iter_total n' x None))) as ->; [|lia].
      eapply (lists_exactly_add _ _ _ _ c); [exact H2|exact H1| |].
      * unfold und. rewrite !Hs. subst c. rewrite is_Some_None in Hba.
        destruct (decide (x = a)) as [->|Hxa].
        -- intros [[H ?]|[H ?]]; [tauto|]. destruct Hba as [->|Hba]; tauto.
        -- destruct Hx as [?| ->]; [done|]. intros [[H ?]|[H ?]]; [|tauto]. destruct Hba as [->|Hba]; tauto.
      * intros y. unfold und. rewrite !Hs. subst c. rewrite is_Some_None in Hba.
        destruct (decide (x = a)) as [->|Hxa].
        -- destruct (decide (y = b)) as [->|Hyb]; [tauto|].
           assert (y = a -> a = b -> False) by congruence. tauto.
        -- destruct Hx as [?| ->]; [done|]. destruct (decide (y = a)) as [->|Hya]; [tauto|]. tauto.
    + rewrite (lists_exactly_length _ (iter_total n x None) (und n' x) H2); [lia|].
      eapply lists_exactly_iff; [|exact H1]. intros y. unfold und. rewrite !Hs. clear H1 H2 Hs Hg Hg'.
      rewrite is_Some_None in Hno.
      destruct (decide (is_Some (lnk n a b))), (decide (is_Some (lnk n b a)));
      destruct (decide (x = a /\ y = b)) as [[? ?]|Hxy];
      destruct (decide (y = a /\ x = b)) as [[? ?]|Hyx]; subst; try tauto;
        destruct (decide (a = b)) as [->|Hne]; try tauto.
  - destruct (decide _) as [(Hab & Hba & Hx)|Hno].
    + set (c := if decide (x = a) then b else a).
      assert (length (iter_total n' x None) = S (length (iter_total n x None))) as ->; [|lia].
      eapply (lists_exactly_add _ _ _ _ c); [exact H1|exact H2| |].
      * unfold und. subst c. rewrite is_Some_None in Hba, Hab.
        destruct (decide (x = a)) as [->|Hxa].
        -- intros [H|H]; [tauto|]. destruct Hba as [->|Hba]; tauto.
        -- destruct Hx as [?| ->]; [done|]. intros [H|H]; [|tauto]. destruct Hba as [->|Hba]; tauto.
      * intros y. unfold und. rewrite !Hs. subst c.
        destruct (decide (x = a)) as [->|Hxa].
        -- destruct (decide (y = b)) as [->|Hyb]; [tauto|].
           assert (y = a -> a = b -> False) by congruence. tauto.
        -- destruct Hx as [?| ->]; [done|]. destruct (decide (y = a)) as [->|Hya]; [tauto|]. tauto.
    + rewrite (lists_exactly_length _ (iter_total n x None) (und n' x) H2); [lia|].
      eapply lists_exactly_iff; [|exact H1]. intros y. unfold und. rewrite !Hs. clear H1 H2 Hs Hg Hg'.
      rewrite !is_Some_None in Hno.
      destruct (decide (is_Some (lnk n a b))), (decide (is_Some (lnk n b a))).
      * split; [tauto|]. intros [[?|[-> ->]]|[?|[-> ->]]]; tauto.
      * split; [tauto|]. intros [[?|[-> ->]]|[?|[-> ->]]]; tauto.
      * split; [tauto|]. intros [[?|[-> ->]]|[?|[-> ->]]]; tauto.
      * split; [tauto|]. intros [[?|[-> ->]]|[?|[-> ->]]]; tauto.
Qed.

Lemma nbrs_ext n n' x : good n -> good n' -> (forall x y, lnk n' x y = lnk n x y) -> nbrs n' x = nbrs n x.
Proof.
  intros Hg Hg' Hl. unfold nbrs. f_equal. eapply lists_exactly_length; [by apply nbrs_exact|].
  eapply lists_exactly_iff; [|by apply nbrs_exact]. intros y. unfold und. by rewrite !Hl.
Qed.

Lemma hist_last asp noe dir fi h n x y w : hist asp noe dir fi h n ->
  last_assigned asp noe dir h x y w <-> w = rd n x y.
Proof.
  intros H. rewrite (hist_refines _ _ _ _ _ _ H). split.
  - intros Hl. eapply last_assigned_fun; [exact Hl|apply spec_run_last].
  - intros ->. apply spec_run_last.
Qed.

Lemma rd_eq_noe n x y : good n -> noEdge n = rd n x y <-> lnk n x y = None.
Proof.
  intros Hg. destruct (decide (is_Some (lnk n x y))) as [H|H].
  - apply rd_noEdge in H as H'; [|done]. split; [congruence|]. intros E. rewrite E in H. by destruct H.
  - apply is_Some_None in H. split; [done|]. intros _. unfold rd. by rewrite H.
Qed.

(** Exact value of the total degree counter of a directed network. *)
Lemma hist_total asp noe fi h n : hist asp noe true fi h n ->
  forall x, exists L, lists_exactly L (lonely_removal asp noe h x) /\
    (tot n x = nbrs n x + Z.of_nat (length L))%Z.
Proof.
  intros H. remember true as dir eqn:Edir.
  induction H as [|h n o H IH|h n m H IH Hr]; intros x.
  - subst. exists []. split; [|done]. split; [constructor|]. intros i. split; [by intros ?%elem_of_nil|].
    intros (o & y & v & Ho & _). by rewrite lookup_nil in Ho.
  - subst dir. specialize (IH x) as (L & HL & IH).
    apply hist_inv in H as Hi. destruct Hi as [HS HLk Hasp Hnoe Hdir Hfic].
    destruct (step n o) as [n' r] eqn:E.
    destruct (step_spec _ _ _ _ HS HLk E) as (HS' & HLk' & _ & _ & _ & _ & Hlnk & Htot & _).
    specialize (Htot Hdir). rewrite Hasp, Hnoe, Hdir in *. cbn [fst].
    assert (good n) as Hg by done. assert (good n') as Hg' by done.
    assert (forall i, lonely_removal asp noe (h ++ [o]) x i <-> lonely_removal asp noe h x i \/
      (i = length h /\ exists y, write_of asp o = Some (y, x, noe) /\ y <> x /\
         is_Some (lnk n y x) /\ lnk n x y = None)) as Hlr.
    { intros i. unfold lonely_removal. setoid_rewrite writes_spec. split.
      - intros (o' & y & v & Ho & Hw & Hne & H1 & Hv & H2).
        destruct (decide (i < length h)) as [Hi|Hi].
        + left. rewrite lookup_app_l in Ho by done. rewrite take_app_le in H1, H2 by lia. eauto 10.
        + right. apply lookup_lt_Some in Ho as Hlt. rewrite app_length in Hlt. simpl in Hlt.
          assert (i = length h) as -> by lia. split; [done|].
          rewrite lookup_app_r, Nat.sub_diag in Ho by lia. simpl in Ho. injection Ho as <-.
          rewrite take_app in H1, H2. apply (hist_last _ _ _ _ _ _ _ _ _ H) in H1, H2.
          exists y. split_and!; [done|done| |].
          * apply rd_noEdge; [done|]. congruence.
          * apply rd_eq_noe; [done|]. congruence.
      - intros [(o' & y & v & Ho & Hw & Hne & H1 & Hv & H2)|(-> & y & Hw & Hne & H1 & H2)].
        + apply lookup_lt_Some in Ho as Hlt. exists o', y, v. rewrite lookup_app_l by done.
          rewrite take_app_le by lia. done.
        + exists o, y, (rd n y x). rewrite lookup_app_r, Nat.sub_diag by lia. rewrite take_app.
          rewrite !(hist_last _ _ _ _ _ _ _ _ _ H). split_and!; try done.
          * apply rd_noEdge in H1; [|done]. congruence.
          * rewrite <- Hnoe. by apply rd_eq_noe. }
    assert (forall i, lonely_removal asp noe h x i -> i <> length h) as Hlt.
    { intros i (o' & y & v & Ho & _) ->. apply lookup_lt_Some in Ho. lia. }
    destruct (write_of asp o) as [[[a b] w]|] eqn:Ew.
    + pose proof (nbrs_change n n' a b w x Hg Hg' Hdir) as Hnb. rewrite Hnoe in Hnb. specialize (Hnb Hlnk).
      rewrite Htot, IH, Hnb. unfold tot_change. rewrite Hnoe.
      destruct (decide (w = noe)) as [->|Hw].
      * destruct (decide (x = b /\ a <> b /\ is_Some (lnk n a b) /\ lnk n b a = None)) as [(-> & Hab & H1 & H2)|Hno].
        -- exists (length h :: L). split.
           ++ destruct HL as [Hnd HL]. split.
              ** apply NoDup_cons. split; [|done]. intros Hin. apply HL in Hin. by apply Hlt in Hin.
              ** intros i. rewrite elem_of_cons, HL, Hlr. split.
                 --- intros [->|?]; [|by left]. right. split; [done|]. eauto 10.
                 --- intros [?|[-> _]]; auto.
           ++ rewrite (decide_True (P := is_Some _ /\ (_ \/ _) /\ _)) by (split_and!; auto).
              rewrite decide_False by (intros (_ & ? & _); congruence). cbn [length]. lia.
        -- exists L. split.
           ++ eapply lists_exactly_iff; [|exact HL]. intros i. rewrite Hlr. split; [by left|].
              intros [?|(_ & y & [= -> ->] & ? & ? & ?)]; [done|]. exfalso. tauto.
           ++ destruct (decide (is_Some (lnk n a b) /\ x = a /\ (a = b \/ lnk n b a = None))) as [H1|H1],
                (decide (is_Some (lnk n a b) /\ (a = b \/ lnk n b a = None) /\ (x = a \/ x = b))) as [H2|H2]; try lia.
              ** tauto.
              ** exfalso. destruct H2 as (H2 & H3 & [->| ->]); [tauto|]. destruct H3 as [->|H3]; [tauto|].
                 destruct (decide (b = a)); [tauto|]. apply Hno. split_and!; congruence.
      * exists L. split; [|lia]. eapply lists_exactly_iff; [|exact HL]. intros i. rewrite Hlr. split; [by left|].
        intros [?|(_ & y & [= -> -> ->] & _)]; [done|]. done.
    + exists L. split.
      * eapply lists_exactly_iff; [|exact HL]. intros i. rewrite Hlr. split; [by left|].
        intros [?|(_ & y & ? & _)]; done.
      * rewrite Htot, IH. by rewrite (nbrs_ext n n').
  - apply hist_inv in H as Hi. destruct Hi as [HS HLk Hasp Hnoe Hdir Hfic].
    destruct (IH x) as (L & HL & He). exists L. split; [done|].
    rewrite (reorder_tot n m) by done. rewrite He. f_equal. symmetry. apply nbrs_ext; [done| |].
    + split; [by eapply reorder_wfS|by eapply reorder_wfL].
    + intros. by apply reorder_lnk.
Qed.
