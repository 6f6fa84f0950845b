(** * Facts about the auxiliary graph *)
From stdpp Require Import prelude sorting.
From Verif Require Import Base Net NetSpec NetFacts NetHist NetIter NetEdges Supra TransFacts TransFacts2 EsuRun Isom IsomSpec.
From Coq Require String Ascii.
Local Open Scope nat_scope.

(** ** The order on tuples of names *)
Lemma ascii_compare_lt_trans a b c : Coq.Strings.Ascii.compare a b = Lt -> Coq.Strings.Ascii.compare b c = Lt -> Coq.Strings.Ascii.compare a c = Lt.
Proof. unfold Coq.Strings.Ascii.compare. rewrite !N.compare_lt_iff. lia. Qed.
Lemma string_compare_lt_trans : forall a b c, Coq.Strings.String.compare a b = Lt -> Coq.Strings.String.compare b c = Lt -> Coq.Strings.String.compare a c = Lt.
Proof.
  induction a as [|x a IH]; intros [|y b] [|z c]; cbn; try done.
  destruct (Coq.Strings.Ascii.compare x y) eqn:E1; [|destruct (Coq.Strings.Ascii.compare y z) eqn:E2; try done|done].
  - apply Coq.Strings.Ascii.compare_eq_iff in E1 as ->. destruct (Coq.Strings.Ascii.compare y z) eqn:E2; [|done|done]. apply IH.
  - apply Coq.Strings.Ascii.compare_eq_iff in E2 as ->. by rewrite E1.
  - by rewrite (ascii_compare_lt_trans x y z E1 E2).
Qed.
Lemma string_leb_lt a b : Coq.Strings.String.leb a b = true <-> a = b \/ Coq.Strings.String.compare a b = Lt.
Proof.
  unfold Coq.Strings.String.leb. destruct (Coq.Strings.String.compare a b) eqn:E.
  - apply Coq.Strings.String.compare_eq_iff in E. naive_solver.
  - naive_solver.
  - split; [done|]. intros [->|?]; [|done]. pose proof (Coq.Strings.String.compare_antisym b b) as H. rewrite E in H. done.
Qed.
Lemma name_leb_trans x y z : name_leb x y = true -> name_leb y z = true -> name_leb x z = true.
Proof.
  destruct x as [x|x], y as [y|y], z as [z|z]; cbn; try done.
  - rewrite !Z.leb_le. lia.
  - rewrite !string_leb_lt. intros [->|H1] [->|H2]; [by left|by right|by right|right]. by eapply string_compare_lt_trans.
Qed.
Global Instance tuple_le_trans : Transitive tuple_le.
Proof.
  unfold tuple_le. intros a. induction a as [|x a IH]; intros [|y b] [|z c]; cbn; try done.
  destruct (decide (x = y)) as [->|H1].
  - intros Hab. destruct (decide (y = z)) as [->|]; [by apply IH|done].
  - intros Hxy. destruct (decide (y = z)) as [->|H2].
    + intros _. by rewrite decide_False.
    + intros Hyz. destruct (decide (x = z)) as [->|]; [|by eapply name_leb_trans].
      exfalso. apply H2. by apply name_leb_antisym.
Qed.
Global Instance tuple_le_total : Total tuple_le.
Proof.
  unfold tuple_le. intros a. induction a as [|x a IH]; intros [|y b]; cbn; [by left|by left|by right|].
  destruct (decide (x = y)) as [->|H1].
  - rewrite decide_True by done. apply IH.
  - rewrite (decide_False (P := y = x)) by congruence. apply name_leb_total.
Qed.
Global Instance tuple_le_antisymm : AntiSymm (=) tuple_le.
Proof.
  unfold tuple_le. intros a. induction a as [|x a IH]; intros [|y b]; cbn; try done.
  destruct (decide (x = y)) as [->|H1].
  - rewrite decide_True by done. intros H2 H3. f_equal. by apply IH.
  - rewrite (decide_False (P := y = x)) by congruence. intros H2 H3. exfalso. apply H1. by apply name_leb_antisym.
Qed.
Lemma merge_sort_tuples_perm (l k : list (list name)) : l ≡ₚ k -> merge_sort tuple_le l = merge_sort tuple_le k.
Proof.
  intros H. apply (Sorted_unique tuple_le); [apply Sorted_merge_sort, _|apply Sorted_merge_sort, _|].
  by rewrite !merge_sort_Permutation.
Qed.

(** ** Numbering *)
Lemma lookup_snoc_Some {A} (x : A) l j k : (l ++ [x]) !! j = Some k <-> (j < length l /\ l !! j = Some k) \/ (j = length l /\ x = k).
Proof.
  rewrite lookup_app_Some. split.
  - intros [H|[H1 H2]]; [left; split; [by eapply lookup_lt_Some|done]|right]. apply list_lookup_singleton_Some in H2 as [H2 ->]. split; [lia|done].
  - intros [[H1 H2]|[-> ->]]; [by left|right]. split; [done|]. by rewrite Nat.sub_diag.
Qed.
  Lemma dget_snoc {K V} `{EqDecision K} (d : dict K V) k v x : k ∉ dkeys d -> dget (d ++ [(k, v)]) x = if decide (x = k) then Some v else dget d x.
  Proof.
    induction d as [|[k' v'] d IH]; cbn; [by intros _; destruct (decide (x = k))|].
    rewrite not_elem_of_cons. intros [H1 H2]. destruct (decide (x = k')) as [->|]; [by rewrite decide_False|]. by apply IH.
  Qed.
  Lemma dset_snoc {K V} `{EqDecision K} (d : dict K V) k v : k ∉ dkeys d -> dset d k v = d ++ [(k, v)].
  Proof.
    induction d as [|[k' v'] d IH]; cbn; [done|]. rewrite not_elem_of_cons. intros [H1 H2]. rewrite decide_False by done. by rewrite IH.
  Qed.
Section numb.
  Context {K : Type} `{EqDecision K}.
  Definition numb (base : nat) (l : list K) : dict K nat := imap (fun i k => (k, base + i)) l.
  Lemma numb_snoc base l k : numb base (l ++ [k]) = numb base l ++ [(k, base + length l)].
  Proof. unfold numb. rewrite imap_app. cbn. by rewrite Nat.add_0_r. Qed.
  Lemma numb_length base l : length (numb base l) = length l.
  Proof. unfold numb. apply imap_length. Qed.
  Lemma numb_keys base l : dkeys (numb base l) = l.
  Proof. unfold numb, dkeys. rewrite fmap_imap. unfold compose. cbn. induction l as [|x l IH] using rev_ind; [done|]. by rewrite imap_app, IH. Qed.
  Lemma dget_numb base l : NoDup l -> forall k i, dget (numb base l) k = Some i <-> exists j, l !! j = Some k /\ i = base + j.
  Proof.
    induction l as [|x l IH] using rev_ind; intros Hnd k i; [split; [done|by intros (? & ? & ?)]|].
    apply NoDup_app in Hnd as (Hnd & Hx & _). assert (x ∉ l) as Hxl by (intros H; by apply (Hx x H), elem_of_list_singleton).
    rewrite numb_snoc, dget_snoc by (by rewrite numb_keys). destruct (decide (k = x)) as [->|Hk].
    - split.
      + intros [= <-]. exists (length l). split; [|done]. rewrite lookup_app_r by done. by rewrite Nat.sub_diag.
      + intros (j & Hj & ->). f_equal. apply lookup_snoc_Some in Hj as [[? Hj]|[-> _]]; [|done]. exfalso. apply Hxl. by eapply elem_of_list_lookup_2.
    - rewrite IH by done. split.
      + intros (j & Hj & ->). exists j. split; [|done]. by apply lookup_app_l_Some.
      + intros (j & Hj & ->). apply lookup_snoc_Some in Hj as [[? Hj]|[_ E]]; [by exists j|congruence].
  Qed.
  Lemma id_numb base l : NoDup l -> forall k j, l !! j = Some k -> dget (numb base l) k = Some (base + j).
  Proof. intros Hnd k j Hj. apply dget_numb; [done|]. by exists j. Qed.
  Lemma id_of_numb base l : NoDup l -> forall k j, l !! j = Some k -> id_of (numb base l) k = base + j.
  Proof. intros Hnd k j Hj. unfold id_of. by rewrite (id_numb base l Hnd k j Hj). Qed.
  Lemma get_id_in base (m : dict K nat) k : k ∈ dkeys m -> get_id base m k = m.
  Proof. intros H. unfold get_id. apply elem_of_dkeys in H as [i ->]. done. Qed.
  Lemma get_id_numb base pre k : k ∉ pre -> get_id base (numb base pre) k = numb base (pre ++ [k]).
  Proof.
    intros H. unfold get_id. assert (dget (numb base pre) k = None) as -> by (apply dget_None; by rewrite numb_keys).
    rewrite dset_snoc by (by rewrite numb_keys). by rewrite numb_snoc, numb_length.
  Qed.
  Lemma enum_dict_numb base l : NoDup l -> enum_dict base l = numb base l.
  Proof.
    unfold enum_dict. induction l as [|x l IH] using rev_ind; intros Hnd; [done|]. apply NoDup_app in Hnd as (Hnd & Hx & _).
    rewrite imap_app, foldl_app. rewrite IH by done. cbn. rewrite Nat.add_0_r, dset_snoc; [by rewrite numb_snoc|].
    rewrite numb_keys. intros H. by apply (Hx x H), elem_of_list_singleton.
  Qed.
  (** Numbering together with colouring. *)
  Definition cols {U} (base : nat) (c : U -> nat) (l : list U) : dict nat nat := imap (fun i k => (base + i, c k)) l.
  Lemma cols_keys {U} base (c : U -> nat) l : dkeys (cols base c l) = seq base (length l).
  Proof.
    unfold cols, dkeys. rewrite fmap_imap. unfold compose. cbn. induction l as [|x l IH] using rev_ind; [done|].
    rewrite imap_app, IH, app_length. cbn. rewrite seq_app. cbn. by rewrite Nat.add_0_r.
  Qed.
  Lemma cols_app {U} base (c : U -> nat) l k : cols base c (l ++ k) = cols base c l ++ cols (base + length l) c k.
  Proof. unfold cols. rewrite imap_app. f_equal. apply imap_ext. intros i x _. cbn. f_equal. lia. Qed.
  Definition num_step (base : nat) (c : K -> nat) (st : dict K nat * dict nat nat) (k : K) : dict K nat * dict nat nat :=
    let m := get_id base (fst st) k in (m, dset (snd st) (id_of m k) (c k)).
  Lemma num_steps base c : forall l pre col, NoDup (pre ++ l) -> (forall i, i ∈ dkeys col <-> i < base + length pre) ->
    foldl (num_step base c) (numb base pre, col) l = (numb base (pre ++ l), col ++ cols (base + length pre) c l).
  Proof.
    induction l as [|k l IH]; intros pre col Hnd Hk; [cbn; by rewrite !app_nil_r|].
    assert (k ∉ pre) as Hkp. { apply NoDup_app in Hnd as (_ & H & _). intros Hin. apply (H k Hin). by left. }
    assert (NoDup (pre ++ [k])) as Hnd'. { rewrite (cons_middle k pre l) in Hnd. rewrite app_assoc in Hnd. by apply NoDup_app in Hnd as [? _]. }
    cbn [foldl]. unfold num_step at 2. cbn [fst snd]. rewrite get_id_numb by done.
    rewrite (id_of_numb base (pre ++ [k]) Hnd' k (length pre)); [|rewrite lookup_app_r by done; by rewrite Nat.sub_diag].
    rewrite dset_snoc by (rewrite Hk; lia). rewrite IH.
    - rewrite <- !app_assoc. do 2 f_equal. change (k :: l) with ([k] ++ l). rewrite (cols_app (base + length pre) c [k] l), app_length.
      change (cols (base + length pre) c [k]) with [(base + length pre + 0, c k)]. cbn [length]. by rewrite Nat.add_0_r, Nat.add_assoc.
    - by rewrite <- app_assoc.
    - intros i. unfold dkeys. rewrite fmap_app, elem_of_app. change ([(base + length pre, c k)].*1) with [base + length pre]. rewrite elem_of_list_singleton. change (col.*1) with (dkeys col). rewrite Hk, app_length. cbn. lia.
  Qed.
End numb.
Lemma dget_cols {U} base (c : U -> nat) l i : dget (cols base c l) (base + i) = c <$> (l !! i).
Proof.
  revert i. induction l as [|x l IH] using rev_ind; intros i; [done|]. rewrite cols_app. cbn [cols imap].
  change (cols (base + length l) c [x]) with [(base + length l + 0, c x)].
  rewrite dget_snoc by (rewrite cols_keys, elem_of_seq; lia). destruct (decide (base + i = base + length l + 0)) as [E|E].
  - assert (i = length l) as -> by lia. rewrite lookup_app_r by done. by rewrite Nat.sub_diag.
  - rewrite IH. destruct (decide (i < length l)) as [Hl|Hl]; [by rewrite lookup_app_l by done|].
    rewrite (lookup_ge_None_2 l i) by lia. rewrite lookup_ge_None_2; [done|]. rewrite app_length. cbn. lia.
Qed.

(** ** The graph that is built *)
Record vok (v : iview) : Prop := {
  vok_dir : v_dir v = false;
  vok_len : length (v_slices v) = S (v_asp v);
  vok_nd : forall s, s ∈ v_slices v -> NoDup s;
  vok_nls : NoDup (v_nls v);
  vok_in : forall a, a ∈ v_nls v -> Forall2 (∈) a (v_slices v);
  vok_nbr : forall a b, a ∈ v_nls v -> b ∈ v_nbr v a -> b ∈ v_nls v;
  vok_sym : forall a b, a ∈ v_nls v -> b ∈ v_nbr v a -> a ∈ v_nbr v b }.
(** The list of aspects is a list of aspects. *)
Definition al_ok (k : nat) (al : option (list nat)) : Prop :=
  match al with None => True | Some l => NoDup l /\ forall a, a ∈ l -> a <= k end.
Definition allowed (k : nat) (al : option (list nat)) (a : nat) : Prop :=
  match al with None => a <= k | Some l => a ∈ l end.
Lemma elem_of_iasp v al a : a ∈ iasp v al <-> allowed (v_asp v) al a.
Proof. unfold iasp, allowed. destruct al; [by rewrite merge_sort_Permutation|]. rewrite elem_of_seq. lia. Qed.
Lemma NoDup_iasp v al : al_ok (v_asp v) al -> NoDup (iasp v al).
Proof. unfold iasp, al_ok. destruct al; [rewrite merge_sort_Permutation; by intros [? _]|intros _; apply NoDup_seq]. Qed.
Lemma elem_of_inasp v al a : a ∈ inasp v al <-> a <= v_asp v /\ ~ allowed (v_asp v) al a.
Proof. unfold inasp, allowed. destruct al; [|rewrite elem_of_nil; lia]. rewrite elem_of_list_filter, elem_of_seq. split; intros [? ?]; split; (done || lia). Qed.
Lemma iasp_range v al a : al_ok (v_asp v) al -> a ∈ iasp v al -> a <= v_asp v.
Proof. rewrite elem_of_iasp. unfold al_ok, allowed. destruct al; [intros [_ H]; apply H|done]. Qed.

Definition vx : Type := nl + (nat * name).
Definition auxl (v : iview) (asp : list nat) : list (nat * name) := asp ≫= (fun a => pair a <$> default [] (v_slices v !! a)).
Definition vlist (v : iview) (asp : list nat) : list vx := (inl <$> v_nls v) ++ (inr <$> auxl v asp).
Definition vcol (asp nasp : list nat) (cs : list (list name)) (u : vx) : nat :=
  match u with inl a => id_of (numb 0 cs) (nl_slice nasp a) | inr (a, _) => id_of (numb (length cs) asp) a end.
Definition vadj (v : iview) (asp : list nat) (u w : vx) : Prop :=
  match u, w with
  | inl a, inl b => b ∈ v_nbr v a
  | inl a, inr (k, e) | inr (k, e), inl a => k ∈ asp /\ a !! k = Some e
  | inr _, inr _ => False
  end.

Lemma elem_of_auxl v asp k e : (k, e) ∈ auxl v asp <-> k ∈ asp /\ exists s, v_slices v !! k = Some s /\ e ∈ s.
Proof.
  unfold auxl. rewrite elem_of_list_bind. split.
  - intros (a & Ha & Hin). apply elem_of_list_fmap in Ha as (x & [= -> ->] & Hx). split; [done|].
    destruct (v_slices v !! a) as [s|]; [by exists s|by apply elem_of_nil in Hx].
  - intros (Hk & s & Hs & He). exists k. split; [|done]. apply elem_of_list_fmap. exists e. by rewrite Hs.
Qed.
Lemma NoDup_auxl v asp : vok v -> NoDup asp -> NoDup (auxl v asp).
Proof.
  intros Hv Hnd. unfold auxl. apply NoDup_bind.
  - done.
  - intros a _. apply NoDup_fmap; [by intros ?? [= ?]|]. destruct (v_slices v !! a) as [s|] eqn:E; [|constructor]. apply (vok_nd v Hv). by eapply elem_of_list_lookup_2.
  - intros a b [x y] _ _ Ha Hb. apply elem_of_list_fmap in Ha as (? & [= -> ->] & _). apply elem_of_list_fmap in Hb as (? & [= -> ->] & _). done.
Qed.
Lemma elem_of_vlist_l v asp a : inl a ∈ vlist v asp <-> a ∈ v_nls v.
Proof.
  unfold vlist. rewrite elem_of_app, !elem_of_list_fmap. split; [intros [(? & [= ->] & ?)|(? & [=] & ?)]; done|]. intros H. left. by exists a.
Qed.
Lemma elem_of_vlist_r v asp k e : inr (k, e) ∈ vlist v asp <-> k ∈ asp /\ exists s, v_slices v !! k = Some s /\ e ∈ s.
Proof.
  unfold vlist. rewrite <- elem_of_auxl, elem_of_app, !elem_of_list_fmap. split; [intros [(? & [=] & ?)|(? & [= <-] & ?)]; done|]. intros H. right. by exists (k, e).
Qed.
Lemma NoDup_vlist v asp : vok v -> NoDup asp -> NoDup (vlist v asp).
Proof.
  intros Hv Hnd. unfold vlist. apply NoDup_app. split; [|split].
  - apply NoDup_fmap; [by intros ?? [= ?]|]. apply Hv.
  - intros u Hu Hw. apply elem_of_list_fmap in Hu as (? & -> & _). apply elem_of_list_fmap in Hw as (? & [=] & _).
  - apply NoDup_fmap; [by intros ?? [= ?]|]. by apply NoDup_auxl.
Qed.

Lemma rfold_foldl {S A} (f : S -> A -> res S) (g : S -> A -> S) l : forall s, (forall s x, x ∈ l -> f s x = Ok (g s x)) -> rfold f s l = Ok (foldl g s l).
Proof.
  induction l as [|x l IH]; intros s H; [done|]. cbn. rewrite H by by left. apply IH. intros. apply H. by right.
Qed.
Lemma foldl_bind {S A B} (g : S -> B -> S) (h : A -> list B) l : forall s, foldl g s (l ≫= h) = foldl (fun s a => foldl g s (h a)) s l.
Proof. induction l as [|x l IH]; intros s; [done|]. cbn. by rewrite foldl_app, IH. Qed.
Lemma foldl_fmap {S A B} (g : S -> B -> S) (h : A -> B) l : forall s, foldl g s (h <$> l) = foldl (fun s a => g s (h a)) s l.
Proof. induction l as [|x l IH]; intros s; [done|]. cbn. apply IH. Qed.

Lemma nl_lookup v a i : vok v -> a ∈ v_nls v -> i <= v_asp v -> exists x s, a !! i = Some x /\ v_slices v !! i = Some s /\ x ∈ s.
Proof.
  intros Hv Ha Hi. pose proof (vok_in v Hv a Ha) as H2. destruct (lookup_lt_is_Some_2 (v_slices v) i) as [s Hs]; [rewrite (vok_len v Hv); lia|].
  destruct (Forall2_lookup_r _ _ _ _ _ H2 Hs) as (x & Hx & Hin). eauto.
Qed.
Lemma nl_len v a : vok v -> a ∈ v_nls v -> length a = S (v_asp v).
Proof. intros Hv Ha. rewrite <- (vok_len v Hv). eapply Forall2_length. by apply Hv. Qed.

Definition net_links (v : iview) : list (nat * nat) := v_nls v ≫= (fun a => (fun b => (id_of (numb 0 (v_nls v)) a, id_of (numb 0 (v_nls v)) b)) <$> v_nbr v a).
Definition aux_links (v : iview) (asp : list nat) : list (nat * nat) :=
  v_nls v ≫= (fun a => (fun i => (id_of (numb 0 (v_nls v)) a, id_of (numb (length (v_nls v)) (auxl v asp)) (i, default (NInt 0) (a !! i)))) <$> asp).

Lemma links_fold {K A} `{EqDecision K} (f : dict K nat * list (nat * nat) -> A -> dict K nat * list (nat * nat)) (h : A -> list (nat * nat)) m (l : list A) :
  (forall ls x, x ∈ l -> f (m, ls) x = (m, ls ++ h x)) -> forall ls, foldl f (m, ls) l = (m, ls ++ (l ≫= h)).
Proof.
  induction l as [|x l IH]; intros H ls; cbn; [by rewrite app_nil_r|]. rewrite H by by left. rewrite IH; [|intros; apply H; by right]. by rewrite <- app_assoc.
Qed.
Lemma bind_singletons {A B} (h : A -> B) l : (l ≫= (fun x => [h x])) = h <$> l.
Proof. induction l as [|x l IH]; [done|]. cbn. by rewrite <- IH. Qed.

Lemma add_net_links_ok v : vok v -> add_net_links v (numb 0 (v_nls v)) = (numb 0 (v_nls v), net_links v).
Proof.
  intros Hv. unfold add_net_links. change (net_links v) with ([] ++ net_links v). apply links_fold. intros ls a Ha.
  erewrite <- bind_singletons. apply links_fold. intros ls' b Hb. cbn [fst snd].
  rewrite (get_id_in 0 _ a) by by rewrite numb_keys. rewrite (get_id_in 0 _ b) by (rewrite numb_keys; by eapply vok_nbr). done.
Qed.
Lemma add_aux_links_ok v asp ls : vok v -> (forall a, a ∈ asp -> a <= v_asp v) ->
  add_aux_links v asp (numb 0 (v_nls v)) (numb (length (v_nls v)) (auxl v asp)) ls = (numb (length (v_nls v)) (auxl v asp), ls ++ aux_links v asp).
Proof.
  intros Hv Hr. unfold add_aux_links. rewrite numb_length. apply links_fold. intros ls' a Ha.
  erewrite <- bind_singletons. apply links_fold. intros ls'' i Hi. cbn [fst snd].
  rewrite get_id_in; [done|]. rewrite numb_keys. apply elem_of_auxl. split; [done|].
  destruct (nl_lookup v a i Hv Ha) as (x & s & Hx & Hs & Hin); [by apply Hr|]. exists s. by rewrite Hx.
Qed.

Lemma build_ok v al cs : vok v -> al_ok (v_asp v) al ->
  let asp := iasp v al in let nasp := inasp v al in
  sorted_colors (remove_dups (nl_slice nasp <$> v_nls v)) = Ok cs ->
  build v al = Ok (MkAux asp nasp (numb 0 (v_nls v)) (numb (length (v_nls v)) (auxl v asp)) (numb 0 cs) (numb (length cs) asp)
    (cols 0 (vcol asp nasp cs) (vlist v asp)) (net_links v ++ aux_links v asp)).
Proof.
  intros Hv Hal asp nasp Hcs. unfold build. rewrite (vok_dir v Hv). fold asp nasp. rewrite Hcs. cbn [rbind].
  pose proof (NoDup_iasp v al Hal) as Hnda. fold asp in Hnda. assert (forall a, a ∈ asp -> a <= v_asp v) as Hr by (intros a; by apply iasp_range).
  assert (cs ≡ₚ remove_dups (nl_slice nasp <$> v_nls v)) as Hp.
  { unfold sorted_colors in Hcs. destruct (forallb _ _); [|done]. injection Hcs as <-. apply merge_sort_Permutation. }
  assert (NoDup cs) as Hndc by (rewrite Hp; apply NoDup_remove_dups).
  rewrite !enum_dict_numb by done. rewrite numb_length.
  assert (add_nodes v nasp (numb 0 cs) = Ok (numb 0 (v_nls v), cols 0 (vcol asp nasp cs) (inl <$> v_nls v))) as ->.
  { unfold add_nodes. rewrite (rfold_foldl _ (num_step 0 (fun a => vcol asp nasp cs (inl a)))).
    - change (@nil (nl * nat)) with (numb 0 (@nil nl)). rewrite num_steps; [|apply Hv|intros i; cbn; rewrite elem_of_nil; lia]. cbn. do 2 f_equal.
      unfold cols. rewrite imap_fmap. done.
    - intros st a Ha. unfold num_step, vcol. assert (nl_slice nasp a ∈ cs) as [j Hj]%elem_of_list_lookup.
      { rewrite Hp, elem_of_remove_dups. apply elem_of_list_fmap. by exists a. }
      by rewrite (id_numb 0 cs Hndc _ j Hj), (id_of_numb 0 cs Hndc _ j Hj). }
  cbn [rbind fst snd]. rewrite add_net_links_ok by done. rewrite numb_length.
  assert (add_aux_nodes v asp (length (v_nls v)) (numb (length cs) asp) (cols 0 (vcol asp nasp cs) (inl <$> v_nls v)) =
    Ok (numb (length (v_nls v)) (auxl v asp), cols 0 (vcol asp nasp cs) (vlist v asp))) as ->.
  { unfold add_aux_nodes. rewrite (rfold_foldl _ (fun st a => foldl (num_step (length (v_nls v)) (fun k => vcol asp nasp cs (inr k))) st (pair a <$> default [] (v_slices v !! a)))).
    - rewrite <- (foldl_bind (num_step (length (v_nls v)) (fun k => vcol asp nasp cs (inr k)))). fold (auxl v asp).
      change (@nil (nat * name * nat)) with (numb (length (v_nls v)) (@nil (nat * name))). rewrite num_steps.
      + cbn [app length]. do 2 f_equal. unfold vlist. rewrite cols_app, fmap_length, Nat.add_0_r, Nat.add_0_l. f_equal. unfold cols. by rewrite imap_fmap.
      + by apply NoDup_auxl.
      + intros i. rewrite cols_keys, elem_of_seq, fmap_length. cbn. lia.
    - intros st a Ha. destruct (lookup_lt_is_Some_2 (v_slices v) a) as [s Hs]; [rewrite (vok_len v Hv); specialize (Hr a Ha); lia|]. rewrite Hs. cbn [default].
      rewrite foldl_fmap. apply rfold_foldl. intros st' e He. unfold num_step, vcol.
      apply elem_of_list_lookup in Ha as [j Hj]. by rewrite (id_numb (length cs) asp Hnda _ j Hj), (id_of_numb (length cs) asp Hnda _ j Hj). }
  cbn [rbind fst snd]. rewrite add_aux_links_ok by done. done.
Qed.
Lemma build_inv v al g : vok v -> al_ok (v_asp v) al -> build v al = Ok g ->
  exists cs, cs = merge_sort tuple_le (remove_dups (nl_slice (inasp v al) <$> v_nls v)) /\
  g = MkAux (iasp v al) (inasp v al) (numb 0 (v_nls v)) (numb (length (v_nls v)) (auxl v (iasp v al))) (numb 0 cs) (numb (length cs) (iasp v al))
    (cols 0 (vcol (iasp v al) (inasp v al) cs) (vlist v (iasp v al))) (net_links v ++ aux_links v (iasp v al)).
Proof.
  intros Hv Hal H. destruct (sorted_colors (remove_dups (nl_slice (inasp v al) <$> v_nls v))) as [cs|e] eqn:E.
  - exists cs. pose proof (build_ok v al cs Hv Hal E) as H2. cbn in H2. rewrite H in H2. injection H2 as H2. split; [|done].
    unfold sorted_colors in E. destruct (forallb _ _); [|done]. by injection E as <-.
  - unfold build in H. rewrite (vok_dir v Hv), E in H. done.
Qed.
