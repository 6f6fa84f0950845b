(** * Facts about relabel, normalize, threshold and get_underlying_graph *)
From Verif Require Export TransFacts.

(** ** Copying links along a map of node-layers *)
Section map_links.
Context (s : src) (P : list (nl * nl)) (R : nl -> nl -> Z) (Hok : src_ok s P R).
Context (asp' : nat) (fi' : bool) (f : nl -> nl) (acc : Z -> bool) (mk : nl -> nl -> Z -> op).
Context (Hmk : forall a b w, length a = S asp' -> length b = S asp' -> write_of asp' (mk a b w) = Some (a, b, w)).
Context (Hlen : forall a, a ∈ s_nls s -> length (f a) = S asp').
Definition copies : list op :=
  (fun p => mk (f (p.1)) (f (p.2)) (R (p.1) (p.2))) <$> filter (fun p => acc (R (p.1) (p.2)) = true) P.
Lemma elem_of_copies o : o ∈ copies <-> exists a b, o = mk (f a) (f b) (R a b) /\ (a, b) ∈ P /\ acc (R a b) = true.
Proof.
  unfold copies. rewrite elem_of_list_fmap. split.
  - intros ([a b] & -> & Hp%elem_of_list_filter). exists a, b. simpl in *. tauto.
  - intros (a & b & -> & Hp & Ha). exists (a, b). split; [done|]. by apply elem_of_list_filter.
Qed.
Lemma copies_write o : o ∈ copies -> exists a b, o = mk (f a) (f b) (R a b) /\ (a, b) ∈ P /\ acc (R a b) = true /\
  write_of asp' o = Some (f a, f b, R a b).
Proof.
  intros (a & b & -> & Hp & Ha)%elem_of_copies. exists a, b. destruct (so_end _ _ _ Hok a b Hp).
  rewrite Hmk by auto. done.
Qed.
Lemma copies_safe : Forall (op_safe asp' (s_noe s) (s_dir s) fi') copies.
Proof.
  apply Forall_forall. intros o (a & b & -> & Hp & Ha & Hw)%copies_write.
  assert (exists a' b' w, write_of asp' (mk (f a) (f b) (R a b)) = Some (a', b', w) /\ (w <> s_noe s \/ s_dir s = true \/ a' <> b')) as H.
  { exists (f a), (f b), (R a b). split; [done|]. left. by apply (so_noe _ _ _ Hok). }
  destruct (mk (f a) (f b) (R a b)) as [?|?|? []|]; done.
Qed.
Context (Hinj : forall a b, a ∈ s_nls s -> b ∈ s_nls s -> f a = f b -> a = b).
Lemma copies_links sops n' : Forall structural sops -> hist asp' (s_noe s) (s_dir s) fi' (sops ++ copies) n' ->
  (forall a b, a ∈ s_nls s -> b ∈ s_nls s -> rd n' (f a) (f b) = if acc (R a b) then R a b else s_noe s) /\
  (forall x y, ~ (exists a b, a ∈ s_nls s /\ b ∈ s_nls s /\ x = f a /\ y = f b) -> rd n' x y = s_noe s).
Proof.
  intros Hst Hh.
  assert (forall x y, rd n' x y = fold_left (spec_step asp' (s_dir s)) copies (spec_run asp' (s_noe s) (s_dir s) sops) x y) as Hrd.
  { intros x y. by rewrite (hist_refines _ _ _ _ _ _ Hh), spec_run_app. }
  split.
  - intros a b Ha Hb. rewrite Hrd.
    assert (forall o a' b' w, o ∈ copies -> write_of asp' o = Some (a', b', w) -> hit (s_dir s) a' b' (f a) (f b) -> w = R a b /\ acc (R a b) = true) as Hw.
    { intros o a' b' w (a1 & b1 & -> & Hp & Hac & E)%copies_write. rewrite E. injection 1 as <- <- <-.
      destruct (so_end _ _ _ Hok a1 b1 Hp) as [Ha1 Hb1]. intros [[H1 H2]|(Hd & H1 & H2)].
      - apply Hinj in H1; [|done|done]. apply Hinj in H2; [|done|done]. subst a1 b1. done.
      - apply Hinj in H1; [|done|done]. apply Hinj in H2; [|done|done]. subst a1 b1.
        rewrite (so_sym _ _ _ Hok Hd a b) by done. done. }
    destruct (hits_dec asp' (s_dir s) copies (f a) (f b)) as [Hx|Hx].
    + destruct Hx as (o & a' & b' & w & Ho & Ew & Hit). destruct (Hw o a' b' w Ho Ew Hit) as [_ ->].
      apply spec_fold_agree; [|eauto 10]. intros o' a'' b'' w' Ho' Ew' Hit'. by destruct (Hw o' a'' b'' w' Ho' Ew' Hit').
    + rewrite spec_fold_miss; [|intros o a' b' w Ho Ew Hit; apply Hx; eauto 10]. rewrite spec_run_structural by done.
      destruct (acc (R a b)) eqn:Eacc; [|done]. destruct (decide (R a b = s_noe s)) as [->|Hne]; [done|]. exfalso. apply Hx.
      destruct (so_all _ _ _ Hok a b Ha Hb Hne) as [Hp|[Hd Hp]].
      * exists (mk (f a) (f b) (R a b)), (f a), (f b), (R a b). split; [apply elem_of_copies; eauto|]. rewrite Hmk by auto. split; [done|by left].
      * rewrite (so_sym _ _ _ Hok Hd) in Eacc by done.
        exists (mk (f b) (f a) (R b a)), (f b), (f a), (R b a). split; [apply elem_of_copies; eauto|]. rewrite Hmk by auto. split; [done|]. by right.
  - intros x y Hno. rewrite Hrd, spec_fold_miss; [by apply spec_run_structural|].
    intros o a' b' w (a1 & b1 & -> & Hp & Hac & E)%copies_write. rewrite E. injection 1 as <- <- <-.
    destruct (so_end _ _ _ Hok a1 b1 Hp) as [Ha1 Hb1]. intros [[-> ->]|(Hd & -> & ->)]; apply Hno; eauto 10.
Qed.
End map_links.

(** ** relabel *)
Definition renames (ds : list (dict name name)) (k : nat) : name -> name := ren (default [] (ds !! k)).
Lemma ren_nl_length ds a : length (ren_nl ds a) = length a.
Proof. unfold ren_nl. apply imap_length. Qed.
Lemma ren_nl_lookup ds a k : ren_nl ds a !! k = renames ds k <$> a !! k.
Proof. unfold ren_nl. by rewrite list_lookup_imap. Qed.
Lemma interleave_lookup (a : list name) : forall (b : list name) i, length a = length b ->
  interleave a b !! i = if Nat.even i then a !! (Nat.div2 i) else b !! (Nat.div2 i).
Proof.
  induction a as [|x a IH]; intros [|y b] i Hl; try done.
  - simpl. rewrite !lookup_nil. by destruct (Nat.even i).
  - destruct i as [|[|i]]; [done|done|]. cbn [interleave]. cbn. rewrite IH by (simpl in Hl; lia). done.
Qed.
Lemma ren_edge_interleave ds a b : length a = length b ->
  ren_edge ds (interleave a b) = interleave (ren_nl ds a) (ren_nl ds b).
Proof.
  intros Hl. apply list_eq. intros i. unfold ren_edge. rewrite list_lookup_imap, !interleave_lookup by (rewrite ?ren_nl_length; done).
  rewrite <- Nat.div2_div. rewrite !ren_nl_lookup. destruct (Nat.even i); done.
Qed.
Lemma ren_nl_inj ds (T : nat -> name -> Prop) a b :
  (forall k x y, T k x -> T k y -> renames ds k x = renames ds k y -> x = y) ->
  (forall k x, a !! k = Some x -> T k x) -> (forall k x, b !! k = Some x -> T k x) -> ren_nl ds a = ren_nl ds b -> a = b.
Proof.
  intros Hi Ha Hb E. apply list_eq. intros k. assert (ren_nl ds a !! k = ren_nl ds b !! k) as Ek by by rewrite E.
  rewrite !ren_nl_lookup in Ek. destruct (a !! k) as [x|] eqn:E1, (b !! k) as [y|] eqn:E2; try done.
  simpl in Ek. injection Ek as Ek. f_equal. eapply Hi; eauto.
Qed.
Lemma pre_image (g : nat -> name -> name) x : forall T, length x = length T ->
  (forall k z, x !! k = Some z -> exists y, y ∈ default [] (T !! k) /\ z = g k y) ->
  exists a, Forall2 (∈) a T /\ x = imap g a.
Proof.
  revert g. induction x as [|z x IH]; intros g [|t T] Hl H; try done.
  - exists []. split; [constructor|done].
  - destruct (H 0 z) as (y & Hy & ->); [done|]. destruct (IH (fun k => g (S k)) T) as (a & HF & ->).
    + simpl in Hl. lia.
    + intros k z' Hz. apply (H (S k)). done.
    + exists (y :: a). split; [by constructor|]. rewrite imap_cons. done.
Qed.
Lemma s_layers_lt s P R k x : src_ok s P R -> x ∈ s_layers s k -> k <= s_asp s.
Proof.
  intros Hok Hx. unfold s_layers in Hx. destruct (s_sl s !! k) as [t|] eqn:E; [|by apply elem_of_nil in Hx].
  apply lookup_lt_Some in E. rewrite (so_sl _ _ _ Hok) in E. lia.
Qed.
Lemma fmap_copies (s : src) P R (g : list name * Z -> op) f mk :
  s_edges s = (fun p => (interleave (p.1) (p.2), R (p.1) (p.2))) <$> P ->
  (forall a b, (a, b) ∈ P -> g (interleave a b, R a b) = mk (f a) (f b) (R a b)) ->
  g <$> s_edges s = copies P R f (fun _ => true) mk.
Proof.
  intros -> H. unfold copies. rewrite <- list_fmap_compose.
  assert (filter (fun p : nl * nl => true = true) P = P) as ->.
  { clear. induction P as [|p P IH]; [done|]. rewrite filter_cons_True by done. by rewrite IH. }
  apply list_fmap_ext. intros i [a b] Hp%elem_of_list_lookup_2. simpl. by apply H.
Qed.

Definition rl_struct (s : src) (ds : list (dict name name)) : list op :=
  ((fun x => OpAddNode (renames ds 0 x) None) <$> s_nodes s) ++
  (seq 1 (s_asp s) ≫= fun k => (fun l => OpAddLayer (renames ds k l) k) <$> s_layers s k) ++
  (if s_fic s then [] else
     (fun a => OpAddNode (node_of (ren_nl ds a)) (Some (lay_arg (tail (ren_nl ds a))))) <$> s_nls s).
Lemma relabel_copies s P R ds : src_ok s P R ->
  relabel_ops s ds = rl_struct s ds ++ copies P R (ren_nl ds) (fun _ => true) (fun a b w => OpSet (interleave a b) w).
Proof.
  intros Hok. unfold relabel_ops, rl_struct. rewrite <- !app_assoc. do 3 f_equal.
  apply (fmap_copies s); [apply Hok|]. intros a b Hp. simpl. rewrite ren_edge_interleave; [done|].
  destruct (so_end _ _ _ Hok a b Hp). by rewrite !(so_len s P R) by done.
Qed.
Lemma rl_struct_elem s P R ds o : src_ok s P R -> o ∈ rl_struct s ds <->
  (exists x, o = OpAddNode (renames ds 0 x) None /\ x ∈ s_nodes s) \/
  (exists k x, 1 <= k /\ o = OpAddLayer (renames ds k x) k /\ x ∈ s_layers s k) \/
  (s_fic s = false /\ exists a, a ∈ s_nls s /\ o = OpAddNode (node_of (ren_nl ds a)) (Some (lay_arg (tail (ren_nl ds a))))).
Proof.
  intros Hok. unfold rl_struct. rewrite !elem_of_app, elem_of_list_fmap, elem_of_list_bind. split.
  - intros [(x & -> & Hx)|[(k & Ho & Hk)|Ho]].
    + left. eauto.
    + apply elem_of_list_fmap in Ho as (x & -> & Hx). apply elem_of_seq in Hk. right. left. exists k, x. split; [lia|done].
    + destruct (s_fic s); [by apply elem_of_nil in Ho|]. apply elem_of_list_fmap in Ho as (a & -> & Ha). right. right. eauto.
  - intros [(x & -> & Hx)|[(k & x & Hk & -> & Hx)|(Hf & a & Ha & ->)]].
    + left. eauto.
    + right. left. exists k. split; [apply elem_of_list_fmap; eauto|]. apply elem_of_seq. pose proof (s_layers_lt s P R k x Hok Hx). lia.
    + right. right. rewrite Hf. apply elem_of_list_fmap. eauto.
Qed.
Lemma nl_split s P R a : src_ok s P R -> a ∈ s_nls s -> a = node_of a :: tail a /\ length (tail a) = s_asp s.
Proof. intros Hok Ha. pose proof (so_len s P R a Hok Ha). destruct a; simpl in *; [lia|]. split; [done|lia]. Qed.
Lemma fic_asp s P R : src_ok s P R -> s_fic s = false -> 1 <= s_asp s.
Proof. intros Hok Hf. destruct (decide (s_asp s = 0)) as [E|]; [|lia]. apply (so_fic _ _ _ Hok) in E. congruence. Qed.

Lemma relabel_spec s P R ds : src_ok s P R ->
  (forall k x y, x ∈ s_layers s k -> y ∈ s_layers s k -> renames ds k x = renames ds k y -> x = y) ->
  exists n' g, relabel s ds = Ok n' /\ hist (s_asp s) (s_noe s) (s_dir s) (s_fic s) g n' /\
    (forall a b, a ∈ s_nls s -> b ∈ s_nls s -> rd n' (ren_nl ds a) (ren_nl ds b) = R a b) /\
    (forall x y, ~ (exists a b, a ∈ s_nls s /\ b ∈ s_nls s /\ x = ren_nl ds a /\ y = ren_nl ds b) -> rd n' x y = s_noe s) /\
    (forall k x, sl n' k x <-> exists y, y ∈ s_layers s k /\ x = renames ds k y) /\
    (forall x, x ∈ iter_node_layers n' <-> exists a, a ∈ s_nls s /\ x = ren_nl ds a).
Proof.
  intros Hok Hinj. unfold relabel. rewrite (relabel_copies s P R) by done.
  set (kops := copies P R (ren_nl ds) (fun _ => true) (fun a b w => OpSet (interleave a b) w)).
  assert (forall a, a ∈ s_nls s -> length (ren_nl ds a) = S (s_asp s)) as Hlen.
  { intros a Ha. rewrite ren_nl_length. by apply (so_len s P R). }
  assert (Forall structural (rl_struct s ds)) as Hst.
  { apply Forall_forall. intros o Ho. apply (rl_struct_elem s P R) in Ho; [|done].
    by destruct Ho as [(x & -> & _)|[(k & x & _ & -> & _)|(_ & a & _ & ->)]]. }
  assert (forall a, a ∈ s_nls s -> ren_nl ds a = node_of (ren_nl ds a) :: tail (ren_nl ds a) /\ length (tail (ren_nl ds a)) = s_asp s) as Hsp.
  { intros a Ha. pose proof (Hlen a Ha) as Hl. destruct (ren_nl ds a); simpl in *; [lia|]. split; [done|lia]. }
  destruct (build_new_ok (s_asp s) (s_noe s) (s_dir s) (s_fic s) (rl_struct s ds ++ kops)) as (n' & E & Hh).
  { apply Forall_app. split.
    - apply Forall_forall. intros o Ho. apply (rl_struct_elem s P R) in Ho; [|done].
      destruct Ho as [(x & -> & _)|[(k & x & _ & -> & Hx)|(Hf & a & Ha & ->)]]; simpl; [done|by eapply s_layers_lt|].
      right. right. apply lay_arg_form; [by apply Hsp|by eapply fic_asp].
    - apply (copies_safe s P R); [done| |done]. intros. by apply write_of_interleave. }
  exists n', (rl_struct s ds ++ kops). split; [done|]. split; [done|].
  assert (forall a b, a ∈ s_nls s -> b ∈ s_nls s -> ren_nl ds a = ren_nl ds b -> a = b) as Hinj'.
  { intros a b Ha Hb. apply (ren_nl_inj ds (fun k x => x ∈ s_layers s k)); [done|..]; intros k x; by apply (so_in s P R). }
  destruct (copies_links s P R Hok (s_asp s) (s_fic s) (ren_nl ds) (fun _ => true) (fun a b w => OpSet (interleave a b) w)) with (sops := rl_struct s ds) (n' := n') as [Hr1 Hr2]; try done.
  { intros. by apply write_of_interleave. }
  split; [intros a b Ha Hb; by rewrite Hr1|]. split; [done|].
  assert (Hsl : forall k x, sl n' k x <-> exists y, y ∈ s_layers s k /\ x = renames ds k y).
  { intros k x. rewrite (hist_sl _ _ _ _ _ _ Hh).
    assert ((if decide (s_asp s = 0) then true else s_fic s) = s_fic s) as ->.
    { destruct (decide (s_asp s = 0)) as [E0|]; [|done]. symmetry. by apply (so_fic _ _ _ Hok). }
    assert (forall a, a ∈ s_nls s -> ren_nl ds a !! k = Some x -> exists y, y ∈ s_layers s k /\ x = renames ds k y) as Hgen.
    { intros a Ha Hx. rewrite ren_nl_lookup in Hx. destruct (a !! k) as [y|] eqn:Ey; [|done]. simpl in Hx. injection Hx as <-.
      exists y. split; [|done]. by eapply so_in. }
    split.
    - intros (o & [Ho|Ho]%elem_of_app & Hm).
      + apply (rl_struct_elem s P R) in Ho; [|done].
        destruct Ho as [(y & -> & Hy)|[(k' & y & Hk & -> & Hy)|(Hf & a & Ha & ->)]].
        * apply mentions_node in Hm as [-> ->]. eauto.
        * apply mentions_layer in Hm as (-> & -> & _). eauto.
        * destruct (Hsp a Ha) as [Es Hl]. apply lay_arg_mentions in Hm; [|done|by eapply fic_asp]. apply (Hgen a Ha). rewrite Es.
          destruct Hm as [[-> ->]|(_ & _ & Hx)]; done.
      + apply elem_of_copies in Ho as (a & b & -> & Hp & _). destruct (so_end _ _ _ Hok a b Hp) as [Ha Hb].
        apply set_full_mentions in Hm; [|auto|auto]. destruct Hm; eauto.
    - intros (y & Hy & ->). destruct k as [|k].
      + exists (OpAddNode (renames ds 0 y) None). split; [|by apply mentions_node]. apply elem_of_app. left.
        apply (rl_struct_elem s P R); [done|]. left. eauto.
      + exists (OpAddLayer (renames ds (S k) y) (S k)). split; [|apply mentions_layer; split; [done|]; split; [done|]; by eapply s_layers_lt].
        apply elem_of_app. left. apply (rl_struct_elem s P R); [done|]. right. left. exists (S k), y. split; [lia|done]. }
  split; [done|].
  intros x. destruct (s_fic s) eqn:Hf.
  - destruct (hist_inv _ _ _ _ _ _ Hh) as [HS HL Ha _ _ Hfi]. assert (fic n' = true) as Hfn.
    { rewrite Hfi. by destruct (decide (s_asp s = 0)). }
    rewrite elem_of_iter_node_layers by done. rewrite Hfn. rewrite nl_in_slices_sl. rewrite (wfS_len _ HS), Ha. split.
    + intros [[Hl Hx] _].
      destruct (pre_image (renames ds) x (s_sl s)) as (a & HF & Ea).
      { by rewrite (so_sl _ _ _ Hok). }
      { intros k z Hz. apply Hsl. eauto. }
      assert (x = ren_nl ds a) as -> by done.
      exists a. split; [|done]. apply (so_nlall _ _ _ Hok); done.
    + intros (a & Ha' & ->). split; [|done]. split; [by apply Hlen|]. intros k z Hz. apply Hsl. rewrite ren_nl_lookup in Hz.
      destruct (a !! k) as [y|] eqn:Ey; [|done]. simpl in Hz. injection Hz as <-. exists y. split; [|done]. by eapply so_in.
  - rewrite (hist_present_nonfic _ _ _ _ _ Hh) by (pose proof (fic_asp s P R Hok Hf); lia). split.
    + intros (o & [Ho|Ho]%elem_of_app & Hm).
      * apply (rl_struct_elem s P R) in Ho; [|done].
        destruct Ho as [(y & -> & Hy)|[(k' & y & Hk & -> & Hy)|(_ & a & Ha & ->)]]; [done|done|].
        destruct (Hsp a Ha) as [Es Hl]. apply lay_arg_creates in Hm; [|done|by eapply fic_asp]. rewrite <- Es in Hm. eauto.
      * apply elem_of_copies in Ho as (a & b & -> & Hp & _). destruct (so_end _ _ _ Hok a b Hp) as [Ha Hb].
        apply set_full_creates in Hm; [|auto|auto]. destruct Hm; eauto.
    + intros (a & Ha & ->). exists (OpAddNode (node_of (ren_nl ds a)) (Some (lay_arg (tail (ren_nl ds a))))). split.
      * apply elem_of_app. left. apply (rl_struct_elem s P R); [done|]. right. right. eauto.
      * destruct (Hsp a Ha) as [Es Hl]. apply lay_arg_creates; [done|by eapply fic_asp|done].
Qed.

(** ** normalize *)
Lemma ascii_compare_trans a b c : Ascii.compare a b <> Gt -> Ascii.compare b c <> Gt -> Ascii.compare a c <> Gt.
Proof. unfold Ascii.compare. intros H1 H2. apply (N.le_trans _ _ _ H1 H2). Qed.
Lemma string_compare_trans a : forall b c, Coq.Strings.String.compare a b <> Gt -> Coq.Strings.String.compare b c <> Gt ->
  Coq.Strings.String.compare a c <> Gt.
Proof.
  induction a as [|x a IH]; intros [|y b] [|z c]; simpl; try done.
  destruct (Ascii.compare x y) eqn:E1; [|intros _|done].
  - apply Ascii.compare_eq_iff in E1 as ->. destruct (Ascii.compare y z) eqn:E2; [|done|done]. apply IH.
  - destruct (Ascii.compare y z) eqn:E2; [|intros _|done].
    + apply Ascii.compare_eq_iff in E2 as ->. by rewrite E1.
    + assert (Ascii.compare x z = Lt) as ->; [|done]. unfold Ascii.compare in *. rewrite N.compare_lt_iff in *. lia.
Qed.
Global Instance name_le_trans : Transitive name_le.
Proof.
  intros [a|a] [b|b] [c|c]; unfold name_le; simpl; try done; [rewrite !Z.leb_le; lia|].
  unfold Coq.Strings.String.leb. pose proof (string_compare_trans a b c) as H.
  destruct (Coq.Strings.String.compare a b), (Coq.Strings.String.compare b c), (Coq.Strings.String.compare a c); try done; intros _ _; exfalso; by apply H.
Qed.
Global Instance name_le_total : Total name_le.
Proof. intros x y. apply name_leb_total. Qed.
Lemma py_sorted_sorted s l : py_sorted s = Ok l -> StronglySorted name_le l.
Proof. unfold py_sorted. destruct (_ && _); [done|]. intros [= <-]. apply StronglySorted_merge_sort; apply _. Qed.
Lemma dget_imap_pair (g : nat -> name) (l : list name) : NoDup l -> forall x v, dget (imap (fun i x => (x, g i)) l) x = Some v <->
  exists i, l !! i = Some x /\ v = g i.
Proof.
  intros Hnd x v. rewrite <- dget_elem_of.
  - rewrite elem_of_list_lookup. split.
    + intros [i Hi]. rewrite list_lookup_imap in Hi. destruct (l !! i) as [y|] eqn:Ey; [|done]. simpl in Hi. injection Hi as -> <-. eauto.
    + intros (i & Hi & ->). exists i. by rewrite list_lookup_imap, Hi.
  - unfold dkeys. rewrite fmap_imap. erewrite (imap_ext _ (fun _ x => x)); [|by intros].
    assert (imap (fun (_ : nat) (x : name) => x) l = l) as ->; [|done]. clear. induction l as [|y l IH]; [done|]. rewrite imap_cons. f_equal. exact IH.
Qed.
Lemma sorted_lookup l i j x y : StronglySorted name_le l -> i < j -> l !! i = Some x -> l !! j = Some y -> name_le x y.
Proof.
  intros Hs. revert i j. induction Hs as [|z l Hs IH Hz]; intros i j Hij Hx Hy; [done|].
  destruct j as [|j]; [lia|]. simpl in Hy. destruct i as [|i]; [|apply (IH i j); [lia|done|done]].
  simpl in Hx. injection Hx as ->. rewrite Forall_forall in Hz. apply Hz. by eapply elem_of_list_lookup_2.
Qed.
Lemma index_map_spec start s d : NoDup s -> index_map start s = Ok d ->
  (forall x, x ∈ s -> exists i, dget d x = Some (NInt i) /\ (start <= i < start + Z.of_nat (length s))%Z) /\
  (forall x v, dget d x = Some v -> x ∈ s) /\
  (forall x y, x ∈ s -> y ∈ s -> ren d x = ren d y -> x = y) /\
  (forall v, (exists x, x ∈ s /\ v = ren d x) <-> exists i, (start <= i < start + Z.of_nat (length s))%Z /\ v = NInt i) /\
  (forall x y i j, dget d x = Some (NInt i) -> dget d y = Some (NInt j) -> (i < j)%Z <-> name_le x y /\ x <> y) /\
  NoDup (dkeys d) /\ (forall x v, dget d x = Some v -> exists i, v = NInt i).
Proof.
  intros Hnd. unfold index_map. destruct (py_sorted s) as [l|] eqn:E; [|done]. cbn [rbind]. intros [= <-].
  pose proof (py_sorted_perm _ _ E) as HP. pose proof (py_sorted_sorted _ _ E) as Hs.
  assert (NoDup l) as Hl by by rewrite HP.
  set (g := fun i => NInt (start + Z.of_nat i)).
  change (imap (fun (i : nat) (x : name) => (x, NInt (start + Z.of_nat i))) l) with (imap (fun i x => (x, g i)) l).
  assert (Hget : forall i x, l !! i = Some x -> dget (imap (fun i x => (x, g i)) l) x = Some (g i)).
  { intros i x Hi. apply dget_imap_pair; [done|]. eauto. }
  assert (Hren : forall i x, l !! i = Some x -> ren (imap (fun i x => (x, g i)) l) x = g i).
  { intros i x Hi. unfold ren. by rewrite (Hget i x Hi). }
  split; [|split; [|split; [|split; [|split; [|split]]]]].
  - intros x Hx. rewrite <- HP in Hx. apply elem_of_list_lookup in Hx as [i Hi]. exists (start + Z.of_nat i)%Z. split; [by apply Hget|].
    apply lookup_lt_Some in Hi. rewrite <- HP. lia.
  - intros x v (i & Hi & _)%dget_imap_pair; [|done]. rewrite <- HP. by eapply elem_of_list_lookup_2.
  - intros x y Hx Hy. rewrite <- HP in Hx, Hy. apply elem_of_list_lookup in Hx as [i Hi], Hy as [j Hj].
    rewrite (Hren i x Hi), (Hren j y Hj). unfold g. intros [= Hij]. assert (i = j) as -> by lia. congruence.
  - intros v. split.
    + intros (x & Hx & ->). rewrite <- HP in Hx. apply elem_of_list_lookup in Hx as [i Hi]. exists (start + Z.of_nat i)%Z.
      rewrite (Hren i x Hi). split; [|done]. apply lookup_lt_Some in Hi. rewrite <- HP. lia.
    + intros (i & Hi & ->). destruct (lookup_lt_is_Some_2 l (Z.to_nat (i - start))) as [x Hx]; [rewrite HP; lia|].
      exists x. split; [rewrite <- HP; by eapply elem_of_list_lookup_2|]. rewrite (Hren _ _ Hx). unfold g. f_equal. lia.
  - intros x y i j Hi Hj. apply dget_imap_pair in Hi as (i' & Hi' & [= ->]); [|done]. apply dget_imap_pair in Hj as (j' & Hj' & [= ->]); [|done].
    split.
    + intros Hlt. assert (i' < j') as Hlt' by lia. split; [by apply (sorted_lookup l i' j')|]. intros ->.
      pose proof (NoDup_lookup l i' j' y Hl Hi' Hj'). lia.
    + intros [Hle Hne]. destruct (decide (i' < j')) as [|Hge]; [lia|]. exfalso. apply Hne. apply name_leb_antisym; [done|].
      destruct (decide (i' = j')) as [->|]; [congruence|]. apply (sorted_lookup l j' i'); [done|lia|done|done].
  - unfold dkeys. rewrite fmap_imap. erewrite (imap_ext _ (fun _ x => x)); [|by intros].
    assert (imap (fun (_ : nat) (x : name) => x) l = l) as ->; [|done]. clear. induction l as [|y l IH]; [done|]. rewrite imap_cons. f_equal. exact IH.
  - intros x v (i & _ & ->)%dget_imap_pair; [|done]. unfold g. eauto.
Qed.
Lemma index_map_ok start s : (exists d, index_map start s = Ok d) <-> ~ mixed s.
Proof.
  unfold index_map. rewrite <- py_sorted_ok. destruct (py_sorted s) as [l|e]; cbn [rbind]; split; intros [d Hd]; try done; eauto.
Qed.
Lemma invert_spec d : NoDup (dkeys d) -> (forall x y v, dget d x = Some v -> dget d y = Some v -> x = y) ->
  forall v x, dget (invert d) v = Some x <-> dget d x = Some v.
Proof.
  intros Hnd Hinj v x. unfold invert.
  assert (forall r, (forall v x, dget r v = Some x -> dget d x = None \/ dget d x = Some v) -> 
    forall v x, dget (foldl (fun r p => dset r (p.2) (p.1)) r d) v = Some x <->
      dget d x = Some v \/ (dget r v = Some x /\ ~ exists y, dget d y = Some v)) as H.
  { clear v x. induction d as [|[y w] d IH]; intros r Hr v x.
    - simpl. split; [intros Hx; right; split; [done|]; intros [? ?]; done|]. intros [?|[? _]]; done.
    - apply NoDup_cons in Hnd as [Hy Hnd]. assert (dget d y = None) as Hyd by by apply dget_None.
      cbn [foldl fst snd]. rewrite IH; [|done|..].
      + cbn [dget]. rewrite dget_dset. destruct (decide (v = w)) as [->|Hv].
        * split.
          -- intros [Hx|[[= <-] Hno]]; [|left; by rewrite decide_True].
             exfalso. assert (x = y) as ->; [|congruence]. apply (Hinj x y w); cbn [dget]; [|by rewrite decide_True].
             rewrite decide_False by congruence. done.
          -- intros [Hx|[Hx Hno]]; [|exfalso; apply Hno; exists y; by rewrite decide_True].
             destruct (decide (x = y)) as [->|Hxy]; [|by left]. right. split; [done|]. intros [z Hz].
             assert (z <> y) by congruence. apply H. apply (Hinj z y w); cbn [dget]; [by rewrite decide_False|by rewrite decide_True].
        * split.
          -- intros [Hx|[Hx Hno]]; [left; rewrite decide_False by congruence; done|]. right. split; [done|].
             intros [z Hz]. destruct (decide (z = y)) as [->|]; [congruence|]. apply Hno. eauto.
          -- intros [Hx|[Hx Hno]].
             ++ destruct (decide (x = y)) as [->|Hxy]; [congruence|]. by left.
             ++ right. split; [done|]. intros [z Hz]. apply Hno. exists z. rewrite decide_False; [done|]. congruence.
      + intros x' y' v' H1 H2. apply (Hinj x' y' v'); cbn [dget]; rewrite decide_False; try done; congruence.
      + intros v' x'. rewrite dget_dset. destruct (decide (v' = w)) as [->|].
        * intros [= <-]. by left.
        * intros Hx. destruct (Hr _ _ Hx) as [Hd|Hd]; cbn [dget] in Hd; destruct (decide (x' = y)) as [->|]; auto. }
  rewrite H; [|done]. split; [|by left]. intros [?|[? _]]; done.
Qed.
Lemma normalize_spec s P R ns ls : src_ok s P R ->
  ((exists r, normalize s ns ls = Ok r) <-> forall t, t ∈ s_sl s -> ~ mixed t) /\
  forall n' ds, normalize s ns ls = Ok (n', ds) ->
    length ds = S (s_asp s) /\ relabel s ds = Ok n' /\
    (forall k t, s_sl s !! k = Some t -> exists d, ds !! k = Some d /\ index_map (if decide (k = 0) then ns else ls) t = Ok d).
Proof.
  intros Hok. unfold normalize.
  set (f := fun p : nat * list name => index_map (if decide (p.1 = 0) then ns else ls) (p.2)).
  assert (forall ds, rmapM f (imap pair (s_sl s)) = Ok ds -> length ds = S (s_asp s) /\
     (forall k t, s_sl s !! k = Some t -> exists d, ds !! k = Some d /\ f (k, t) = Ok d)) as Hds.
  { intros ds E. pose proof (rmapM_Ok_length _ _ _ E) as Hl. rewrite imap_length, (so_sl _ _ _ Hok) in Hl. split; [done|].
    intros k t Hk. destruct (lookup_lt_is_Some_2 ds k) as [d Hd].
    { rewrite Hl, <- (so_sl _ _ _ Hok). by eapply lookup_lt_Some. }
    exists d. split; [done|]. destruct (rmapM_Ok_lookup _ _ _ _ _ E Hd) as ([k' t'] & Hk' & Hf).
    rewrite list_lookup_imap, Hk in Hk'. by injection Hk' as <- <-. }
  split.
  - split.
    + intros [[n' ds'] E]. destruct (rmapM f _) as [ds|] eqn:Er; [|done]. intros t [k Hk]%elem_of_list_lookup.
      destruct (Hds ds eq_refl) as [_ H]. destruct (H k t Hk) as (d & _ & Hd). eapply index_map_ok. eauto.
    + intros Hm. destruct (rmapM f (imap pair (s_sl s))) as [ds|e] eqn:Er; cbn [rbind].
      * destruct (Hds ds eq_refl) as [Hl H]. destruct (relabel_spec s P R ds Hok) as (n' & g & -> & _); [|cbn [rbind]; eauto].
        intros k x y Hx Hy. unfold s_layers in Hx, Hy. destruct (s_sl s !! k) as [t|] eqn:Ek; [|by apply elem_of_nil in Hx].
        destruct (H k t Ek) as (d & Ed & Hd). unfold renames. rewrite Ed. simpl in *.
        eapply index_map_spec; [|exact Hd|done|done]. by eapply (Forall_lookup_1 _ _ _ _ (so_slnd _ _ _ Hok)).
      * exfalso. apply rmapM_err in Er as ([k t] & Hk & Hf). apply elem_of_imap_pair in Hk. 
        assert (exists d, f (k, t) = Ok d) as [d Hd]; [|congruence]. apply index_map_ok, Hm. by eapply elem_of_list_lookup_2.
  - intros n' ds. destruct (rmapM f _) as [ds'|] eqn:Er; [|done]. cbn [rbind]. destruct (relabel s ds') as [m|] eqn:Em; [|done]. cbn [rbind].
    intros [= <- <-]. destruct (Hds ds' eq_refl) as [Hl H]. split; [done|]. split; [done|]. exact H.
Qed.

(** ** threshold *)
Definition acc_of (r : rule) (t w : Z) : bool :=
  match r with RGe => bool_decide (t <= w)%Z | RLe => bool_decide (w <= t)%Z | RGt => bool_decide (t < w)%Z | RLt => bool_decide (w < t)%Z | ROther => false end.
Lemma thr_loop s P R r t m : s_edges s = (fun p => (interleave (p.1) (p.2), R (p.1) (p.2))) <$> P -> r <> ROther ->
  rfold (thr_step r t) m (s_edges s) = build m (copies P R (fun a => a) (acc_of r t) (fun a b w => OpSet (interleave a b) w)).
Proof.
  intros -> Hr. revert m. induction P as [|[a b] P IH]; intros m; [done|].
  cbn [fmap list_fmap rfold]. unfold thr_step at 1. cbn [fst snd].
  assert (accept r (R a b) t = Ok (acc_of r t (R a b))) as -> by by destruct r. cbn [rbind].
  unfold copies. rewrite filter_cons. cbn [fst snd]. destruct (acc_of r t (R a b)) eqn:Ea.
  - rewrite decide_True by done. cbn [fmap list_fmap fst snd]. unfold build. cbn [rfold]. destruct (do_op m _) as [m1|]; cbn [rbind]; [|done]. apply IH.
  - rewrite decide_False by done. cbn [rbind]. apply IH.
Qed.
Definition thr_struct (s : src) : list op :=
  ((fun x => OpAddNode x None) <$> s_nodes s) ++ (seq 1 (s_asp s) ≫= fun k => (fun l => OpAddLayer l k) <$> s_layers s k).
Lemma thr_struct_elem s P R o : src_ok s P R -> o ∈ thr_struct s <->
  (exists x, o = OpAddNode x None /\ x ∈ s_nodes s) \/
  (exists k x, 1 <= k /\ o = OpAddLayer x k /\ x ∈ s_layers s k).
Proof.
  intros Hok. unfold thr_struct. rewrite !elem_of_app, elem_of_list_fmap, elem_of_list_bind. split.
  - intros [(x & -> & Hx)|(k & Ho & Hk)].
    + left. eauto.
    + apply elem_of_list_fmap in Ho as (x & -> & Hx). apply elem_of_seq in Hk. right. exists k, x. split; [lia|done].
  - intros [(x & -> & Hx)|(k & x & Hk & -> & Hx)].
    + left. eauto.
    + right. exists k. split; [apply elem_of_list_fmap; eauto|]. apply elem_of_seq. pose proof (s_layers_lt s P R k x Hok Hx). lia.
Qed.
Lemma threshold_spec s P R t r : src_ok s P R -> s_fic s = true -> r <> ROther ->
  exists n' g, threshold s t r = Ok n' /\ hist (s_asp s) (s_noe s) (s_dir s) (s_fic s) g n' /\
    (forall a b, a ∈ s_nls s -> b ∈ s_nls s -> rd n' a b = if acc_of r t (R a b) then R a b else s_noe s) /\
    (forall x y, ~ (x ∈ s_nls s /\ y ∈ s_nls s) -> rd n' x y = s_noe s) /\
    (forall k x, sl n' k x <-> x ∈ s_layers s k).
Proof.
  intros Hok Hf Hr. unfold threshold. fold (thr_struct s).
  set (kops := copies P R (fun a => a) (acc_of r t) (fun a b w => OpSet (interleave a b) w)).
  assert (forall a, a ∈ s_nls s -> length a = S (s_asp s)) as Hlen by (intros; by apply (so_len s P R)).
  assert (Forall structural (thr_struct s)) as Hst.
  { apply Forall_forall. intros o Ho. apply (thr_struct_elem s P R) in Ho; [|done]. by destruct Ho as [(x & -> & _)|(k & x & _ & -> & _)]. }
  destruct (build_new_ok (s_asp s) (s_noe s) (s_dir s) (s_fic s) (thr_struct s ++ kops)) as (n' & E & Hh).
  { apply Forall_app. split.
    - apply Forall_forall. intros o Ho. apply (thr_struct_elem s P R) in Ho; [|done].
      destruct Ho as [(x & -> & _)|(k & x & _ & -> & Hx)]; simpl; [done|by eapply s_layers_lt].
    - apply (copies_safe s P R); [done| |done]. intros. by apply write_of_interleave. }
  exists n', (thr_struct s ++ kops). split.
  { rewrite build_app in E. destruct (build _ (thr_struct s)) as [m0|]; [|done]. cbn [rbind] in E |- *. unfold thr_nls. rewrite Hf. cbn [rbind].
    rewrite (thr_loop s P R) by (try done; apply Hok). done. }
  split; [done|].
  destruct (copies_links s P R Hok (s_asp s) (s_fic s) (fun a => a) (acc_of r t) (fun a b w => OpSet (interleave a b) w)) with (sops := thr_struct s) (n' := n') as [Hr1 Hr2]; try done.
  { intros. by apply write_of_interleave. }
  split; [done|]. split.
  { intros x y Hxy. apply Hr2. intros (a & b & Ha & Hb & -> & ->). by apply Hxy. }
  intros k x. rewrite (hist_sl _ _ _ _ _ _ Hh). split.
  - intros (o & [Ho|Ho]%elem_of_app & Hm).
    + apply (thr_struct_elem s P R) in Ho; [|done]. destruct Ho as [(y & -> & Hy)|(k' & y & Hk & -> & Hy)].
      * by apply mentions_node in Hm as [-> ->].
      * by apply mentions_layer in Hm as (-> & -> & _).
    + apply elem_of_copies in Ho as (a & b & -> & Hp & _). destruct (so_end _ _ _ Hok a b Hp) as [Ha Hb].
      apply set_full_mentions in Hm; [|auto|auto]. destruct Hm; eauto using so_in.
  - intros Hx. destruct k as [|k].
    + exists (OpAddNode x None). split; [|by apply mentions_node]. apply elem_of_app. left. apply (thr_struct_elem s P R); [done|]. left. eauto.
    + exists (OpAddLayer x (S k)). split; [|apply mentions_layer; split; [done|]; split; [done|]; by eapply s_layers_lt].
      apply elem_of_app. left. apply (thr_struct_elem s P R); [done|]. right. exists (S k), x. split; [lia|done].
Qed.
Lemma threshold_nonfic s P R t r : src_ok s P R -> s_fic s = false -> s_nls s <> [] -> threshold s t r = Err NameError.
Proof.
  intros Hok Hf Hne. unfold threshold. fold (thr_struct s).
  destruct (build_new_ok (s_asp s) (s_noe s) (s_dir s) (s_fic s) (thr_struct s)) as (n' & -> & _).
  { apply Forall_forall. intros o Ho. apply (thr_struct_elem s P R) in Ho; [|done].
    destruct Ho as [(x & -> & _)|(k & x & _ & -> & Hx)]; simpl; [done|by eapply s_layers_lt]. }
  cbn [rbind]. unfold thr_nls. rewrite Hf. by destruct (s_nls s).
Qed.
Lemma threshold_other s P R t : src_ok s P R -> s_fic s = true ->
  (threshold s t ROther = Err GenericException <-> P <> []) /\ (P = [] -> threshold s t ROther = threshold s t RGe).
Proof.
  intros Hok Hf. unfold threshold. fold (thr_struct s).
  destruct (build_new_ok (s_asp s) (s_noe s) (s_dir s) (s_fic s) (thr_struct s)) as (n' & -> & _).
  { apply Forall_forall. intros o Ho. apply (thr_struct_elem s P R) in Ho; [|done].
    destruct Ho as [(x & -> & _)|(k & x & _ & -> & Hx)]; simpl; [done|by eapply s_layers_lt]. }
  cbn [rbind]. unfold thr_nls. rewrite Hf. cbn [rbind]. rewrite (so_edges _ _ _ Hok). destruct P as [|[a b] P']; simpl; [|done]. split; [|done]. split; done.
Qed.

(** ** get_underlying_graph *)
Lemma underlying_spec str s P R : src_ok s P R -> (forall a b, a ∈ s_nls s -> b ∈ s_nls s -> str a = str b -> a = b) ->
  exists n' g, underlying str s = Ok n' /\ hist 0 (s_noe s) (s_dir s) true g n' /\
    (forall a b, a ∈ s_nls s -> b ∈ s_nls s -> rd n' [str a] [str b] = R a b) /\
    (forall x y, ~ (exists a b, a ∈ s_nls s /\ b ∈ s_nls s /\ x = [str a] /\ y = [str b]) -> rd n' x y = s_noe s) /\
    (forall x, sl n' 0 x <-> exists a, a ∈ s_nls s /\ x = str a).
Proof.
  intros Hok Hinj. unfold underlying.
  set (sops := (fun a => OpAddNode (str a) None) <$> s_nls s).
  assert ((fun e : list name * Z => let '(a, b) := link_to_nodes (e.1) in OpNodeSet [str a] [str b] (e.2)) <$> s_edges s =
    copies P R (fun a => [str a]) (fun _ => true) OpNodeSet) as ->.
  { apply (fmap_copies s); [apply Hok|]. intros a b Hp. cbn [fst snd]. destruct (so_end _ _ _ Hok a b Hp).
    rewrite link_to_nodes_interleave; [done|]. by rewrite !(so_len s P R) by done. }
  set (kops := copies P R (fun a => [str a]) (fun _ => true) OpNodeSet).
  assert (Forall structural sops) as Hst. { unfold sops. apply Forall_fmap, Forall_true. done. }
  destruct (build_new_ok 0 (s_noe s) (s_dir s) true (sops ++ kops)) as (n' & E & Hh).
  { apply Forall_app. split; [unfold sops; apply Forall_fmap, Forall_true; done|].
    apply (copies_safe s P R); [done| |done]. intros. by apply nodeset_write. }
  exists n', (sops ++ kops). split; [done|]. split; [done|].
  destruct (copies_links s P R Hok 0 true (fun a => [str a]) (fun _ => true) OpNodeSet) with (sops := sops) (n' := n') as [Hr1 Hr2]; try done.
  { intros. by apply nodeset_write. }
  { intros a b Ha Hb [= H]. by apply Hinj. }
  split; [intros a b Ha Hb; by rewrite Hr1|]. split; [done|].
  intros x. rewrite (hist_sl _ _ _ _ _ _ Hh). split.
  - intros (o & [Ho|Ho]%elem_of_app & Hm).
    + apply elem_of_list_fmap in Ho as (a & -> & Ha). apply mentions_node in Hm as [_ ->]. eauto.
    + apply elem_of_copies in Ho as (a & b & -> & Hp & _). destruct (so_end _ _ _ Hok a b Hp) as [Ha Hb].
      apply nodeset_mentions in Hm; [|done|done]. destruct Hm as [[= <-]|[= <-]]; eauto.
  - intros (a & Ha & ->). exists (OpAddNode (str a) None). split; [|by apply mentions_node]. apply elem_of_app. left.
    apply elem_of_list_fmap. eauto.
Qed.

(** ** overlay_network: incomparable names *)
Lemma rfold_raises {S A} (f : S -> A -> res S) (I : S -> Prop) e l : forall s, I s ->
  (forall s a, a ∈ l -> I s -> (exists s', f s a = Ok s' /\ I s') \/ f s a = Err e) ->
  (exists a, a ∈ l /\ forall s, I s -> f s a = Err e) -> rfold f s l = Err e.
Proof.
  induction l as [|x l IH]; intros s Hs Hstep (a & Ha & He); [by apply elem_of_nil in Ha|]. cbn [rfold].
  destruct (Hstep s x ltac:(left) Hs) as [(s' & Es & Hs')|Es]; rewrite Es; [|done].
  apply elem_of_cons in Ha as [->|Ha]; [rewrite He in Es; done|].
  apply IH; [done| |eauto]. intros s1 a1 Ha1. apply Hstep. by right.
Qed.
Lemma overlay_mixed ns ls w (W : name -> name -> name -> Z) :
  (forall i j l, i ∈ ns -> j ∈ ns -> l ∈ ls -> i <> j -> w i j l = Ok (W i j l)) ->
  mixed ns -> ls <> [] -> overlay 1 false [ns; ls] w = Err TypeError.
Proof.
  intros Hw (i & t & Hi & Ht) Hls. unfold overlay. rewrite decide_True by done. cbn [lookup list_lookup default].
  set (T := ls ≫= fun l => ns ≫= fun i => (fun j => (l, (i, j))) <$> ns).
  assert (forall l i j, (l, (i, j)) ∈ T <-> l ∈ ls /\ i ∈ ns /\ j ∈ ns) as HT by (intros; apply elem_of_triples).
  change (rfold (overlay_step false w) (new_net 0 0 false true) T = Err TypeError).
  apply (rfold_raises _ (fun m => exists g, hist 0 0 false true g m)).
  - exists []. constructor.
  - intros m [l [x y]] (Hl & Hx & Hy)%HT [g Hh]. destruct (py_gt x y) as [[]|e] eqn:E.
    + left. destruct (hist_inv _ _ _ _ _ _ Hh) as [HS HL Hma Hmn Hmd Hmf]. rewrite overlay_step_eq; [|by right|done]. cbn [fst snd].
      assert (x <> y) as Hne by (intros ->; by rewrite py_gt_irrefl in E). rewrite (Hw x y l) by done. cbn [rbind].
      set (o := OpSet [x; y] (rd m [x] [y] + W x y l)).
      destruct (do_op_ok _ _ _ _ _ _ o Hh) as [m1 E1].
      { exists [x], [y], (rd m [x] [y] + W x y l)%Z. split; [done|]. intros _ _ [= ->]. done. }
      exists m1. split; [done|]. exists (g ++ [o]). by eapply do_op_hist.
    + left. simpl. rewrite E. cbn [rbind]. eauto.
    + right. simpl. rewrite E. cbn [rbind]. unfold py_gt in E. destruct (eqb _ _); [done|]. by injection E as <-.
  - destruct ls as [|l ls]; [done|]. exists (l, (NInt i, NStr t)). split; [apply HT; split; [left|done]|]. intros m _. done.
Qed.
