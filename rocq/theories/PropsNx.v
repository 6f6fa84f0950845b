(** * Properties C50 and C60: networkx functions on plain networks *)
From Verif Require Import Nx NxSpec NetSpec NetFacts NetHist NetIter NetEdges PropsNet.
Local Open Scope nat_scope.

(** ** C50: what the decorator leaves behind *)
Lemma exec_view p : forall w w' o, graph w = GView -> exec p w = (w', o) -> graph w' = GView.
Proof.
  induction p as [v|e|k IH|args kw body IHb k IHk]; intros w w' o Hg E; cbn [exec] in E.
  - by injection E as <- <-.
  - by injection E as <- <-.
  - rewrite Hg in E. by eapply IH in E.
  - destruct (let? a := rmapM (wrap w) args in _) as [ab|e]; cbn [fst snd] in E.
    + destruct (exec (body _ _) _) as [w1 o1] eqn:E1. apply IHb in E1; [|done]. destruct o1 as [v|e]; cbn [fst snd] in E; eapply IHk in E; done.
    + by eapply IHk in E.
Qed.
Global Instance accepted_dec w c : Decision (accepted w c).
Proof.
  assert (forall v, Decision (match v with VNet i => nets w !! i = Some (0, false) | _ => True end)) as D by (intros [i|i| |z]; apply _).
  destruct (@decide (Forall (fun v => match v with VNet i => nets w !! i = Some (0, false) | _ => True end) (c_args c ++ (c_kwargs c).*2)) _) as [H|H]; [left|right].
  - intros i Hi. rewrite Forall_forall in H. by apply H in Hi.
  - intros Ha. apply H. apply Forall_forall. intros [i|i| |z] Hi; try done. by apply Ha.
Defined.
Lemma wrap_ok w c : accepted w c -> exists a b, rmapM (wrap w) (c_args c) = Ok a /\ rmapM (wrap_kw w) (c_kwargs c) = Ok b.
Proof.
  destruct c as [args kw body]. unfold accepted. simpl. intros H.
  assert (forall v, v ∈ args ++ kw.*2 -> exists v', wrap w v = Ok v') as Hw.
  { intros [i|i| |z] Hv; simpl; [|by eexists..]. rewrite (H i Hv). by eexists. }
  assert (exists a, rmapM (wrap w) args = Ok a) as [a Ha].
  { assert (forall v, v ∈ args -> exists v', wrap w v = Ok v') as Hw' by (intros v Hv; apply Hw, elem_of_app; by left).
    clear -Hw'. induction args as [|v args IH]; [by exists []|]. simpl. destruct (Hw' v) as [v' ->]; [left|]. simpl. destruct IH as [a ->]; [intros; apply Hw'; by right|]. by eexists. }
  assert (exists a, rmapM (wrap_kw w) kw = Ok a) as [b Hb].
  { assert (forall v, v ∈ kw.*2 -> exists v', wrap w v = Ok v') as Hw' by (intros v Hv; apply Hw, elem_of_app; by right).
    clear -Hw'. induction kw as [|[s v] kw IH]; [by exists []|]. simpl. unfold wrap_kw at 1. simpl. destruct (Hw' v) as [v' ->]; [left|]. simpl. destruct IH as [a ->]; [intros; apply Hw'; by right|]. by eexists. }
  by exists a, b.
Qed.
Lemma wrap_err w c : (forall i, VNet i ∈ c_args c ++ (c_kwargs c).*2 -> i < length (nets w)) -> ~ accepted w c ->
  (let? a := rmapM (wrap w) (c_args c) in let? b := rmapM (wrap_kw w) (c_kwargs c) in Ok (a, b)) = Err AssertionError.
Proof.
  destruct c as [args kw body]. unfold accepted. simpl. intros Hb Hn.
  assert (forall v e, v ∈ args ++ kw.*2 -> wrap w v = Err e -> e = AssertionError) as He.
  { intros [i|i| |z] e Hv E; simpl in E; try done. apply Hb in Hv. apply lookup_lt_is_Some in Hv as [[asp dir] Hi]. rewrite Hi in E. destruct (decide (asp = 0)); [destruct dir|]; congruence. }
  assert (forall v v', wrap w v = Ok v' -> forall i, v = VNet i -> nets w !! i = Some (0, false)) as Hok.
  { intros v v' E i ->. simpl in E. destruct (nets w !! i) as [[asp dir]|]; [|done]. destruct (decide (asp = 0)) as [->|]; [|done]. by destruct dir. }
  destruct (rmapM (wrap w) args) as [a|e] eqn:Ea; simpl.
  - destruct (rmapM (wrap_kw w) kw) as [b|e] eqn:Eb; simpl.
    + exfalso. apply Hn. intros i [Hi|Hi]%elem_of_app.
      * clear -Ea Hi Hok. revert a Ea Hi. induction args as [|v args IH]; intros a Ea Hi; [by apply elem_of_nil in Hi|]. simpl in Ea. destruct (wrap w v) eqn:E; [|done]. simpl in Ea.
        destruct (rmapM (wrap w) args) as [aa|]; [|done]. apply elem_of_cons in Hi as [<-|Hi]; [by eapply Hok|by eapply IH].
      * clear -Eb Hi Hok. revert b Eb Hi. induction kw as [|[s v] kw IH]; intros b Eb Hi; [by apply elem_of_nil in Hi|]. simpl in Eb. unfold wrap_kw at 1 in Eb. simpl in Eb. destruct (wrap w v) eqn:E; [|done]. simpl in Eb.
        destruct (rmapM (wrap_kw w) kw) as [aa|]; [|done]. apply elem_of_cons in Hi as [Hi|Hi]; [by eapply Hok|by eapply IH].
    + f_equal. assert (forall v e, v ∈ kw.*2 -> wrap w v = Err e -> e = AssertionError) as He' by (intros v e' Hv; apply He, elem_of_app; by right).
      clear -Eb He'. revert Eb. induction kw as [|[s v] kw IH]; intros Eb; [done|]. simpl in Eb. unfold wrap_kw at 1 in Eb. simpl in Eb. destruct (wrap w v) eqn:E; simpl in Eb.
      * destruct (rmapM (wrap_kw w) kw); [done|]. simpl in Eb. apply IH; [|congruence]. intros; eapply He'; [by right|done].
      * injection Eb as <-. eapply He'; [left|done].
  - f_equal. assert (forall v e, v ∈ args -> wrap w v = Err e -> e = AssertionError) as He' by (intros v e' Hv; apply He, elem_of_app; by left).
    clear -Ea He'. revert Ea. induction args as [|v args IH]; intros Ea; [done|]. simpl in Ea. destruct (wrap w v) eqn:E; simpl in Ea.
    + destruct (rmapM (wrap w) args); [done|]. simpl in Ea. apply IH; [|congruence]. intros; eapply He'; [by right|done].
    + injection Ea as <-. eapply He'; [left|done].
Qed.
(** A call that returns leaves networkx.Graph as it was, whatever the function did: calls of
    other wrapped functions, failing or not, at any depth. *)
Theorem C50_restored_on_return c w w' v : exec (call c) w = (w', ORet v) -> graph w' = graph w.
Proof.
  unfold call. cbn [exec]. destruct (let? a := rmapM (wrap w) (c_args c) in _) as [ab|e]; cbn [fst snd exec]; [|done].
  destruct (exec (c_body c _ _) _) as [w1 [v1|e]]; cbn [fst snd exec]; [|done]. by intros [= <- <-].
Qed.
(** A call that raises although its arguments were accepted leaves the view class installed. *)
Theorem C50_installed_after_exception c w w' e : accepted w c -> exec (call c) w = (w', ORaise e) -> graph w' = GView.
Proof.
  intros Hc. destruct (wrap_ok w c Hc) as (a & b & Ea & Eb). unfold call. cbn [exec]. rewrite Ea, Eb. cbn [rbind fst snd].
  destruct (exec (c_body c a b) _) as [w1 [v1|e1]] eqn:E; cbn [fst snd exec]; [done|]. intros [= <- _]. by eapply exec_view in E.
Qed.
(** Arguments that are not accepted raise before anything is changed. *)
Theorem C50_rejected_arguments c w : (forall i, VNet i ∈ c_args c ++ (c_kwargs c).*2 -> i < length (nets w)) -> ~ accepted w c ->
  exec (call c) w = (w, ORaise AssertionError).
Proof. intros Hi Hn. unfold call. cbn [exec]. by rewrite (wrap_err w c Hi Hn). Qed.
(** After any calls from a fresh start, networkx.Graph is the original class iff no call
    with accepted arguments raised. *)
Theorem C50_sessions w0 tr w : session w0 tr w -> graph w0 = GOriginal ->
  (forall v c o, (v, c, o) ∈ tr -> forall i, VNet i ∈ c_args c ++ (c_kwargs c).*2 -> i < length (nets v)) ->
  graph w = GOriginal <-> forall v c e, (v, c, ORaise e) ∈ tr -> ~ accepted v c.
Proof.
  intros Hs. induction Hs as [w|w0 tr w c w' o Hs IH E]; intros H0 Hids.
  - split; [|done]. intros _ v c e Hin. by apply elem_of_nil in Hin.
  - assert (graph w = GOriginal <-> forall v c e, (v, c, ORaise e) ∈ tr -> ~ accepted v c) as IH'.
    { apply IH; [done|]. intros v c' o' Hin. apply (Hids v c' o'). apply elem_of_app. by left. }
    clear IH. destruct o as [v|e].
    + rewrite (C50_restored_on_return _ _ _ _ E), IH'. split; intros H v' c' e' Hin.
      * apply elem_of_app in Hin as [Hin|Hin]; [by eapply H|]. by apply elem_of_list_singleton in Hin.
      * eapply H. apply elem_of_app. by left.
    + destruct (decide (accepted w c)) as [Ha|Ha].
      * split.
        -- intros Hg. rewrite (C50_installed_after_exception _ _ _ _ Ha E) in Hg. done.
        -- intros H. exfalso. apply (H w c e); [|done]. apply elem_of_app. right. left.
      * rewrite (C50_rejected_arguments c w) in E; [|by apply (Hids w c (ORaise e)), elem_of_app; right; left|done]. injection E as <- _.
        rewrite IH'. split; intros H v' c' e' Hin.
        -- apply elem_of_app in Hin as [Hin|Hin]; [by eapply H|]. apply elem_of_list_singleton in Hin. by injection Hin as -> -> _.
        -- eapply H. apply elem_of_app. by left.
Qed.
(** What the function gets and what the caller gets: networks are replaced by their views,
    and a view that is returned by its network. *)
Definition shown (v v' : value) : Prop := match v with VNet i => v' = VView i | _ => v' = v end.
Theorem C50_arguments c w : accepted w c -> exists a b, Forall2 shown (c_args c) a /\
  Forall2 (fun p q => p.1 = q.1 /\ shown (p.2) (q.2)) (c_kwargs c) b /\
  forall w1 o, exec (c_body c a b) (World GView (nets w)) = (w1, o) ->
    (exec (call c) w).2 = match o with ORet (VView i) => ORet (VNet i) | _ => o end /\ nets ((exec (call c) w).1) = nets w1.
Proof.
  intros Hc. destruct (wrap_ok w c Hc) as (a & b & Ea & Eb). exists a, b.
  assert (forall v v', wrap w v = Ok v' -> shown v v') as Hsh.
  { intros [i|i| |z] v' E; simpl in *; try congruence. destruct (nets w !! i) as [[asp dir]|]; [|done]. destruct (decide (asp = 0)); [|done]. destruct dir; congruence. }
  split; [|split].
  - clear -Ea Hsh. revert a Ea. induction (c_args c) as [|v l IH]; intros a Ea; simpl in Ea; [injection Ea as <-; constructor|].
    destruct (wrap w v) eqn:E; [|done]. simpl in Ea. destruct (rmapM (wrap w) l); [|done]. injection Ea as <-. constructor; [by apply Hsh|by apply IH].
  - clear -Eb Hsh. revert b Eb. induction (c_kwargs c) as [|[s v] l IH]; intros b Eb; simpl in Eb; [injection Eb as <-; constructor|]. unfold wrap_kw at 1 in Eb. simpl in Eb.
    destruct (wrap w v) eqn:E; [|done]. simpl in Eb. destruct (rmapM (wrap_kw w) l); [|done]. injection Eb as <-. constructor; [split; [done|by apply Hsh]|by apply IH].
  - intros w1 o E. unfold call. cbn [exec]. rewrite Ea, Eb. cbn [rbind fst snd]. change (set_graph w GView) with (World GView (nets w)). rewrite E. destruct o as [[| | |]|]; done.
Qed.
(** What the user sees: graphs made by networkx.Graph() after the calls. *)
Theorem C50_later_graphs w0 tr w : session w0 tr w -> graph w0 = GOriginal ->
  (forall v c o, (v, c, o) ∈ tr -> forall i, VNet i ∈ c_args c ++ (c_kwargs c).*2 -> i < length (nets v)) ->
  (exec (PGraph PRet) w).2 = ORet VGraph <-> forall v c e, (v, c, ORaise e) ∈ tr -> ~ accepted v c.
Proof. intros Hs H0 Hids. rewrite <- (C50_sessions _ _ _ Hs H0 Hids). simpl. by destruct (graph w). Qed.

(** ** C60: the network as networkx sees it *)
Section view.
Context (noe : Z) (fi : bool) (h : list op) (n : mlnet) (H : hist 0 noe false fi h n).
Lemma h_asp : aspects n = 0. Proof. by destruct (hist_inv _ _ _ _ _ _ H). Qed.
Lemma h_noe : noEdge n = noe. Proof. by destruct (hist_inv _ _ _ _ _ _ H). Qed.
Lemma get_node x : getitem n [INm x] = Ok (GNode [x] None).
Proof. unfold getitem, getitem_full. by rewrite h_asp. Qed.
Lemma node_elem x : x ∈ net_nodes n <-> has_elem n 0 x.
Proof. unfold net_nodes, has_elem, get_layers. destruct (slices n !! 0) as [s|]; simpl; [naive_solver|]. split; [by intros ?%elem_of_nil|by intros (? & ? & _)]. Qed.
Lemma node_list_spec x : exists l, node_list n x = Ok l /\ lists_exactly l (fun y => linked n [x] [y]).
Proof.
  unfold node_list. rewrite get_node. eexists. split; [done|].
  destruct (C06_neighbours_exact _ _ _ _ _ _ H [x] None I) as (_ & _ & Hnd & Hin).
  assert (forall b, b ∈ iter_total n [x] None -> exists y, b = [y]) as H1.
  { intros b Hb. apply Hin in Hb as [[Hb|Hb] _]; destruct Hb as (Hl1 & Hl2 & _); rewrite h_asp in *; destruct b as [|y [|]]; try done; by exists y. }
  assert (forall a b, linked n a b -> linked n b a) as Hsym.
  { intros a b (La & Lb & w & Hr & Hw). split; [done|]. split; [done|]. exists w. split; [|done]. rewrite h_asp in *. by apply (C02_undirected_symmetric _ _ _ _ _ H a b w La Lb). }
  split.
  - apply NoDup_fmap_2_strong; [|done]. intros a b Ha Hb E. destruct (H1 a Ha) as [y ->], (H1 b Hb) as [z ->]. change (y = z) in E. congruence.
  - intros y. rewrite elem_of_list_fmap. split.
    + intros (b & -> & Hb). destruct (H1 b Hb) as [z ->]. change (linked n [x] [z]). apply Hin in Hb as [[?|?] _]; [done|by apply Hsym].
    + intros Hl. exists [y]. split; [done|]. apply Hin. by split; [left|].
Qed.
End view.
Theorem C60_view noe fi h n : hist 0 noe false fi h n ->
  lists_exactly (adj_iter n) (has_elem n 0) /\ adj_len n = length (adj_iter n) /\
  (forall x, adj_getitem n x = Ok x /\ has_elem n 0 x \/ adj_getitem n x = Err KeyError /\ ~ has_elem n 0 x) /\
  (forall x, exists l, adjlist_iter n x = Ok l /\ lists_exactly l (fun y => linked n [x] [y]) /\ adjlist_len n x = Ok (Z.of_nat (length l))) /\
  (forall x y, adjlist_getitem n x y = Ok (x, y) /\ linked n [x] [y] \/ adjlist_getitem n x y = Err KeyError /\ ~ linked n [x] [y]) /\
  (forall x y w, edge_getitem n x y "weight" = Ok w <-> reads n [x] [y] w) /\
  (forall x y key, key <> "weight"%string -> edge_getitem n x y key = Err KeyError) /\
  (forall x, nodes_getitem n x = Ok tt /\ has_elem n 0 x \/ nodes_getitem n x = Err KeyError /\ ~ has_elem n 0 x).
Proof.
  intros H. pose proof (h_asp _ _ _ _ H) as Has. split_and!.
  - split; [|intros x; by apply node_elem].
    destruct (hist_good _ _ _ _ _ _ H) as [HS _]. unfold adj_iter, net_nodes. destruct (slices n !! 0) as [s|] eqn:E; simpl; [|constructor].
    pose proof (wfS_nodup n HS) as Hnd. rewrite Forall_forall in Hnd. apply Hnd. by eapply elem_of_list_lookup_2.
  - done.
  - intros x. unfold adj_getitem. destruct (decide (x ∈ net_nodes n)) as [Hx|Hx]; rewrite node_elem in Hx; auto.
  - intros x. destruct (node_list_spec _ _ _ _ H x) as (l & El & Hl). exists l. split; [done|]. split; [done|].
    unfold adjlist_len. rewrite (get_node _ _ _ _ H). f_equal.
    destruct (C08_total_degree_exact _ _ _ _ _ _ H [x] None I (or_introl eq_refl)) as (L & [HLn HL] & ->). f_equal.
    assert (L ≡ₚ (fun y => [y]) <$> l) as ->; [|by rewrite fmap_length]. destruct Hl as [Hln Hl].
    apply NoDup_Permutation; [done|by apply (NoDup_fmap_2 _)|]. intros b. rewrite HL, elem_of_list_fmap.
    assert (forall a b, linked n a b -> linked n b a) as Hsym.
    { intros a b' (La & Lb & w & Hr & Hw). split; [done|]. split; [done|]. exists w. split; [|done]. rewrite Has in *. by apply (C02_undirected_symmetric _ _ _ _ _ H a b' w La Lb). }
    split.
    + intros [Hb _]. assert (linked n [x] b) as Hb' by (destruct Hb; [done|by apply Hsym]). destruct Hb' as (? & Hlb & ?). rewrite Has in Hlb. destruct b as [|y [|]]; try done. exists y. split; [done|]. apply Hl.
      destruct Hb; [done|by apply Hsym].
    + intros (y & -> & Hy). apply Hl in Hy. split; [by left|done].
  - intros x y. destruct (node_list_spec _ _ _ _ H x) as (l & El & Hl). unfold adjlist_getitem. rewrite El. cbn [rbind].
    destruct (decide (y ∈ l)) as [Hy|Hy]; apply Hl in Hy || rewrite (proj2 Hl y) in Hy; auto.
  - intros x y w. unfold edge_getitem. rewrite decide_True by done. split.
    + intros E. exists [x; y]. rewrite Has. split; [by apply (names_short 0 x y [])|]. simpl. by destruct (getitem n [INm x; INm y]) as [[|]|]; simplify_eq.
    + intros Hr. assert (getitem n [INm x; INm y] = Ok (GWeight w)) as ->; [|done].
      assert (names_link (aspects n) [x; y] [x] [y]) as Hn by (rewrite Has; by apply (names_short 0 x y [])).
      apply reads_rd in Hr; [|by rewrite Has..]. change [INm x; INm y] with (INm <$> [x; y]). by rewrite (getitem_names n [x; y] [x] [y] Hn), Hr.
  - intros x y key Hk. unfold edge_getitem. by rewrite decide_False.
  - intros x. unfold nodes_getitem. destruct (decide (x ∈ net_nodes n)) as [Hx|Hx]; rewrite node_elem in Hx; auto.
Qed.
Lemma reads_eq noe fi h n x y w : hist 0 noe false fi h n -> reads n [x] [y] w -> forall v, reads n [x] [y] v <-> v = w.
Proof. intros H Hr v. pose proof (h_asp _ _ _ _ H) as Has. rewrite reads_rd in * by (by rewrite Has). split; congruence. Qed.
Lemma set_link_set noe fi h n x y w n' r : hist 0 noe false fi h n -> setitem n [x; y] w = (n', r) ->
  hist 0 noe false fi (h ++ [OpSet [x; y] w]) n' /\ link_set n n' x y w /\
  (r = Err KeyError <-> w = noe /\ x = y /\ linked n [x] [x]) /\ (r = Err KeyError \/ r = Ok tt).
Proof.
  intros H E. pose proof (hist_op _ _ _ _ _ _ (OpSet [x; y] w) H) as H'. simpl in H'. rewrite E in H'. simpl in H'. split; [done|].
  assert (writes 0 (OpSet [x; y] w) [x] [y] w) as Hw by (split; [done|by apply (names_short 0 x y [])]).
  destruct (C05_write_effect _ _ _ _ _ _ H _ _ _ _ Hw) as (Hother & Hthis & Herr & Hok). simpl in Hother, Hthis, Herr, Hok. rewrite E in *. simpl in *.
  assert (reads n' [y] [x] w) as Hback by (by apply (C02_undirected_symmetric _ _ _ _ _ H' [x] [y] w)).
  split; [|split].
  - split; [by eapply reads_eq|]. split; [by eapply reads_eq|]. split.
    + intros a b v H1 H2. apply Hother; [done|done|intros [[= ->] [= ->]]; tauto|intros (_ & [= ->] & [= ->]); tauto].
    + intros z. rewrite (C12_nodes_and_layers_exact _ _ _ _ _ _ H'), (C12_nodes_and_layers_exact _ _ _ _ _ _ H). setoid_rewrite elem_of_app. setoid_rewrite elem_of_list_singleton. split.
      * intros (o & [Ho| ->] & Hm); [left; by exists o|right]. simpl in Hm. destruct Hm as (a & b & v & [<- Hn] & Hab).
        inversion Hn as [item a' b' L1 L2 L3 Ha Hb|i j ss L]; subst; simpl in *.
        -- rewrite (Ha 0), (Hb 0) in Hab. simpl in Hab. destruct Hab as [[= ->]|[= ->]]; auto.
        -- destruct Hab as [[= ->]|[= ->]]; auto.
      * intros [(o & Ho & Hm)|Hz]; [by exists o; auto|]. exists (OpSet [x; y] w). split; [by right|]. simpl. exists [x], [y], w. split; [done|]. simpl. destruct Hz as [-> | ->]; auto.
  - rewrite Herr. split; [intros (-> & _ & [= ->] & ?); done|intros (-> & -> & ?); done].
  - destruct r as [[]|e]; [by right|]. destruct (decide (Err e = Err KeyError :> res unit)) as [?|Hne]; [by left|]. right. by apply Hok.
Qed.
Lemma adjlist_get_dec noe fi h n x y : hist 0 noe false fi h n ->
  adjlist_getitem n x y = Ok (x, y) /\ linked n [x] [y] \/ adjlist_getitem n x y = Err KeyError /\ ~ linked n [x] [y].
Proof. intros H. by apply (C60_view _ _ _ _ H). Qed.
Lemma adj_get_dec noe fi h n x : hist 0 noe false fi h n ->
  adj_getitem n x = Ok x /\ has_elem n 0 x \/ adj_getitem n x = Err KeyError /\ ~ has_elem n 0 x.
Proof. intros H. by apply (C60_view _ _ _ _ H). Qed.
(** Writing an edge: [G._adj[x][y]=v] and [G._adj[x][y][key]=w]. *)
Theorem C60_write_edge noe fi h n x y v n' r : hist 0 noe false fi h n -> nxstep n (NxEdge x y v) = (n', r) ->
  (has_elem n 0 x -> link_set n n' x y (edge_weight v) /\ (r = Ok tt \/ r = Err KeyError /\ edge_weight v = noe /\ x = y /\ linked n [x] [x])) /\
  (~ has_elem n 0 x -> n' = n /\ r = Err KeyError).
Proof.
  intros H E. cbn [nxstep] in E. destruct (adj_get_dec _ _ _ _ x H) as [[Ex Hx]|[Ex Hx]]; rewrite Ex in E.
  - split; [intros _|done]. destruct (set_link_set _ _ _ _ _ _ _ _ _ H E) as (_ & Hs & Hr & Hr2). split; [done|]. destruct Hr2 as [->|Hr2]; [right|by left]. split; [done|by apply Hr].
  - split; [done|intros _]. by injection E as <- <-.
Qed.
Theorem C60_write_attribute noe fi h n x y key w n' r : hist 0 noe false fi h n -> nxstep n (NxAttr x y key w) = (n', r) ->
  (linked n [x] [y] -> if decide (key = "weight"%string) then link_set n n' x y w /\ (r = Ok tt \/ r = Err KeyError /\ w = noe /\ x = y) else n' = n /\ r = Ok tt) /\
  (~ linked n [x] [y] -> n' = n /\ r = Err KeyError).
Proof.
  intros H E. cbn [nxstep] in E.
  assert (linked n [x] [y] -> has_elem n 0 x) as Hlx. { intros Hl. destruct (C12_links_between_node_layers _ _ _ _ _ _ H _ _ Hl) as (_ & _ & Hk). apply (Hk 0). by left. }
  destruct (adj_get_dec _ _ _ _ x H) as [[Ex Hx]|[Ex Hx]]; rewrite Ex in E.
  - destruct (adjlist_get_dec _ _ _ _ x y H) as [[Ey Hy]|[Ey Hy]]; rewrite Ey in E.
    + split; [intros _|done]. unfold edge_setitem in E. destruct (decide (key = "weight"%string)).
      * destruct (set_link_set _ _ _ _ _ _ _ _ _ H E) as (_ & Hs & Hr & Hr2). split; [done|]. destruct Hr2 as [->|Hr2]; [right|by left]. split; [done|]. by destruct (proj1 Hr eq_refl) as (? & ? & _).
      * by injection E as <- <-.
    + split; [done|intros _]. by injection E as <- <-.
  - split; [intros Hl; by apply Hlx in Hl|intros _]. by injection E as <- <-.
Qed.
(** Removing an edge, by itself or by its weight. *)
Theorem C60_remove_edge noe fi h n x y n' r : hist 0 noe false fi h n -> linked n [x] [y] ->
  nxstep n (NxDelEdge x y) = (n', r) \/ nxstep n (NxDelAttr x y "weight") = (n', r) ->
  link_set n n' x y noe /\ ~ linked n' [x] [y] /\ ~ linked n' [y] [x] /\ r = if decide (x = y) then Err KeyError else Ok tt.
Proof.
  intros H Hl E.
  assert (has_elem n 0 x) as Hlx. { destruct (C12_links_between_node_layers _ _ _ _ _ _ H _ _ Hl) as (_ & _ & Hk). apply (Hk 0). by left. }
  assert (setitem n [x; y] noe = (n', r)) as Es.
  { destruct (adj_get_dec _ _ _ _ x H) as [[Ex _]|[_ Hx]]; [|done]. destruct (adjlist_get_dec _ _ _ _ x y H) as [[Ey _]|[_ Hy]]; [|done]. cbn [nxstep] in E. rewrite Ex, Ey in E.
    unfold adjlist_delitem, edge_delitem in E. rewrite decide_True in E by done. rewrite (h_noe _ _ _ _ H) in E. by destruct E. }
  destruct (set_link_set _ _ _ _ _ _ _ _ _ H Es) as (H' & Hs & Hr & Hr2). split; [done|]. pose proof Hs as (H1 & H2 & _).
  pose proof (h_noe _ _ _ _ H') as Hn'. split; [|split].
  - intros (_ & _ & w & Hw & Hne). apply H1 in Hw. congruence.
  - intros (_ & _ & w & Hw & Hne). apply H2 in Hw. congruence.
  - destruct (decide (x = y)) as [->|Hxy]; [by apply Hr|]. destruct Hr2 as [->|?]; [|done]. by destruct (proj1 Hr eq_refl) as (_ & ? & _).
Qed.
(** [G._adj[x]={...}] adds the node and the links of the dictionary; the links that are not
    in the dictionary stay. *)
Theorem C60_write_adjacency noe fi h n x d n' r : hist 0 noe false fi h n -> NoDup (d.*1) -> (forall v, (x, v) ∈ d -> edge_weight v <> noe) ->
  nxstep n (NxAdj x (Some d)) = (n', r) -> r = Ok tt /\
  (forall z, has_elem n' 0 z <-> has_elem n 0 z \/ z = x \/ z ∈ d.*1) /\
  (forall y v w, (y, v) ∈ d -> reads n' [x] [y] w <-> w = edge_weight v) /\
  (forall y v w, (y, v) ∈ d -> reads n' [y] [x] w <-> w = edge_weight v) /\
  (forall a b w, ~ (a = x /\ b ∈ d.*1) -> ~ (b = x /\ a ∈ d.*1) -> reads n' [a] [b] w <-> reads n [a] [b] w).
Proof.
  intros H Hnd Hself E. cbn [nxstep adj_setitem] in E. destruct (add_node n x None) as [n1 r1] eqn:E1.
  pose proof (hist_op _ _ _ _ _ _ (OpAddNode x None) H) as H1. cbn [step] in H1. rewrite E1 in H1. cbn [fst] in H1.
  assert (r1 = Ok tt) as ->. { by injection E1. }
  cbn [obind] in E.
  assert (forall z, has_elem n1 0 z <-> has_elem n 0 z \/ z = x) as Hn1.
  { intros z. rewrite (C12_nodes_and_layers_exact _ _ _ _ _ _ H1), (C12_nodes_and_layers_exact _ _ _ _ _ _ H). setoid_rewrite elem_of_app. setoid_rewrite elem_of_list_singleton. split.
    - intros (o & [Ho| ->] & Hm); [left; by exists o|right]. simpl in Hm. destruct Hm as [[_ ->]|[(_ & ? & _)|(_ & ? & _)]]; [done|lia|lia].
    - intros [(o & Ho & Hm)|Hz]; [by exists o; auto|]. exists (OpAddNode x None). split; [by right|]. simpl. auto. }
  assert (forall a b w, reads n1 [a] [b] w <-> reads n [a] [b] w) as Hr1.
  { intros a b w. pose proof (h_asp _ _ _ _ H) as Has. pose proof (h_asp _ _ _ _ H1) as Has1. rewrite !reads_rd by (by rewrite ?Has, ?Has1). unfold rd. unfold add_node in E1. by injection E1 as <-. }
  clear E1. remember (h ++ [OpAddNode x None]) as h1 eqn:Hh1. clear Hh1.
  assert (exists h', hist 0 noe false fi h' n' /\ r = Ok tt /\
    (forall z, has_elem n' 0 z <-> has_elem n1 0 z \/ z = x /\ d <> [] \/ z ∈ d.*1) /\
    (forall y v w, (y, v) ∈ d -> reads n' [x] [y] w <-> w = edge_weight v) /\
    (forall a b w, ~ (a = x /\ b ∈ d.*1) -> ~ (b = x /\ a ∈ d.*1) -> reads n' [a] [b] w <-> reads n1 [a] [b] w)) as (h' & H' & -> & Hn' & Hrd & Hro).
  { clear H Hn1 Hr1. revert n1 h1 H1 E. induction d as [|[y v] d IH]; intros n1 h1 H1 E; cbn [ofold fst snd] in E.
    - injection E as <- <-. exists h1. split; [done|]. split; [done|]. split; [intros z; simpl; rewrite elem_of_nil; tauto|]. split; [by intros ? ? ? ?%elem_of_nil|done].
    - destruct (adjlist_setitem n1 x y v) as [n2 r2] eqn:E2. cbn [obind fst snd] in E. destruct (set_link_set _ _ _ _ _ _ _ _ _ H1 E2) as (H2 & (Hxy & Hyx & Ho & Hz) & Hr & Hr2).
      assert (r2 = Ok tt) as ->. { destruct Hr2 as [->|?]; [|done]. destruct (proj1 Hr eq_refl) as (Hv & <- & _). exfalso. apply (Hself v); [left|done]. }
      rewrite fmap_cons in Hnd. apply NoDup_cons in Hnd as [Hy Hnd]. cbn [fst] in Hy.
      destruct (IH Hnd (fun v' Hv' => Hself v' (elem_of_list_further _ _ _ Hv')) n2 _ H2 E) as (h' & H' & -> & Hz' & Hrd & Hro).
      exists h'. split; [done|]. split; [done|]. split; [|split].
      + intros z. rewrite Hz', Hz. simpl. rewrite elem_of_cons. split; [intros [[?|[?|?]]|[[? _]|?]]; auto|intros [?|[[? _]|[?|?]]]; auto].
      + intros y' v' w [[= -> ->]|Hin]%elem_of_cons; [|by apply Hrd].
        rewrite Hro; [by rewrite Hxy|intros [_ ?]; done|intros [-> ?]; done].
      + simpl. setoid_rewrite elem_of_cons. intros a b w Ha Hb. rewrite Hro by tauto. apply Ho; [intros [-> ->]; tauto|intros [-> ->]; tauto]. }
  split; [done|]. split; [|split; [|split]].
  - intros z. rewrite Hn', Hn1. tauto.
  - done.
  - intros y v w Hd. rewrite <- (C02_undirected_symmetric _ _ _ _ _ H' [x] [y] w) by done. by apply Hrd.
  - intros a b w Ha Hb. by rewrite Hro, Hr1.
Qed.
(** Nodes cannot be removed and adjacencies must be dictionaries. *)
Theorem C60_refused n x : nxstep n (NxDelAdj x) = (n, Err GenericException) /\ nxstep n (NxAdj x None) = (n, Err GenericException).
Proof. done. Qed.
(** Whatever networkx writes, the network stays one that calls of its own methods produce:
    C01-C15 hold of it. *)
Theorem C60_histories noe fi h n os : hist 0 noe false fi h n -> exists h', hist 0 noe false fi (h ++ h') (fold_left (fun m o => (nxstep m o).1) os n).
Proof.
  revert h n. induction os as [|o os IH]; intros h n H; [exists []; by rewrite app_nil_r|].
  assert (exists h', hist 0 noe false fi (h ++ h') (nxstep n o).1) as [h1 H1].
  { assert (forall x y w, exists h', hist 0 noe false fi (h ++ h') (setitem n [x; y] w).1) as Hs by (intros x y w; exists [OpSet [x; y] w]; by apply (hist_op _ _ _ _ _ _ (OpSet [x; y] w))).
    assert (exists h', hist 0 noe false fi (h ++ h') n) as Hn by (exists []; by rewrite app_nil_r).
    destruct o as [x [d|]|x|x y v|x y|x y key w|x y key]; cbn [nxstep]; try done.
    - cbn [adj_setitem]. pose proof (hist_op _ _ _ _ _ _ (OpAddNode x None) H) as H1. cbn [step] in H1. destruct (add_node n x None) as [n1 [[]|e]] eqn:E; cbn [obind fst] in *; [|by exists [OpAddNode x None]].
      clear Hs Hn E. cut (forall h1 n1, hist 0 noe false fi h1 n1 -> exists h', hist 0 noe false fi (h1 ++ h') (ofold (fun n e => adjlist_setitem n x (e.1) (e.2)) n1 d).1).
      + intros Hc. destruct (Hc _ _ H1) as [h' Hh']. exists ([OpAddNode x None] ++ h'). by rewrite app_assoc.
      + clear H H1. induction d as [|[y v] d IHd]; intros h1 m Hm; cbn [ofold fst snd]; [exists []; by rewrite app_nil_r|].
        pose proof (hist_op _ _ _ _ _ _ (OpSet [x; y] (edge_weight v)) Hm) as Hm1. cbn [step] in Hm1. unfold adjlist_setitem at 1.
        destruct (setitem m [x; y] (edge_weight v)) as [m1 [[]|e]]; cbn [fst] in *; [|by exists [OpSet [x; y] (edge_weight v)]].
        destruct (IHd _ _ Hm1) as [h' Hh']. exists ([OpSet [x; y] (edge_weight v)] ++ h'). by rewrite app_assoc.
    - destruct (adj_getitem n x); [apply Hs|done].
    - destruct (adj_getitem n x); [apply Hs|done].
    - destruct (adj_getitem n x); [|done]. destruct (adjlist_getitem n x y); [|done]. unfold edge_setitem. destruct (decide (key = "weight"%string)); [apply Hs|done].
    - destruct (adj_getitem n x); [|done]. destruct (adjlist_getitem n x y); [|done]. unfold edge_delitem. destruct (decide (key = "weight"%string)); [apply Hs|done]. }
  cbn [fold_left]. destruct (IH _ _ H1) as [h' Hh']. exists (h1 ++ h'). by rewrite app_assoc.
Qed.

(** ** The hypotheses are met *)
(** A wrapped function that catches the failure of another one, and one that raises. *)
Definition ex_fail : call_of := Call [VNet 0] [] (fun _ _ => PRaise KeyError).
Definition ex_catch : call_of := Call [VNet 0] [("G"%string, VNet 0)] (fun a _ => PCall a [] (fun _ _ => PRaise KeyError) (fun _ => PGraph PRet)).
Definition ex_bad : call_of := Call [VNet 0] [("G"%string, VNet 1)] (fun _ _ => PRet (VOther 1)).
Definition ex_world : world := World GOriginal [(0, false); (0, true)].
Example C50_restored_ok : exec (call ex_catch) ex_world = (World GOriginal [(0, false); (0, true); (0, false)], ORet (VNet 2)).
Proof. by vm_compute. Qed.
Example C50_installed_ok : accepted ex_world ex_fail /\ exec (call ex_fail) ex_world = (World GView [(0, false); (0, true)], ORaise KeyError).
Proof. split; [|by vm_compute]. apply (bool_decide_eq_true_1 _). by vm_compute. Qed.
Example C50_rejected_ok : ~ accepted ex_world ex_bad /\ (forall i, VNet i ∈ c_args ex_bad ++ (c_kwargs ex_bad).*2 -> i < length (nets ex_world)).
Proof.
  split; [apply (bool_decide_eq_false_1 _); by vm_compute|]. intros i [[= ->]|[[= ->]|Hi]%elem_of_cons]%elem_of_cons; [simpl; lia|simpl; lia|by apply elem_of_nil in Hi].
Qed.
(** Three calls: the second one leaves the view installed, for the third one too. *)
Example C50_session_ok : exists tr w, session ex_world tr w /\ length tr = 3 /\ graph w = GView /\ (exec (PGraph PRet) w).2 = ORet (VView 4).
Proof.
  eexists _, _. split.
  - eapply (session_snoc _ _ _ ex_catch); [eapply (session_snoc _ _ _ ex_fail); [eapply (session_snoc _ _ _ ex_catch); [apply session_nil|by vm_compute]|by vm_compute]|by vm_compute].
  - by vm_compute.
Qed.
Definition ex_plain : mlnet := run (new_net 0 0 false true) [OpSet [A1; A2] 3; OpSet [A2; A3] 5; OpSet [A3; A3] 2].
Example C60_ok : hist 0 0 false true [OpSet [A1; A2] 3; OpSet [A2; A3] 5; OpSet [A3; A3] 2] ex_plain /\
  adj_iter ex_plain = [A1; A2; A3] /\ adjlist_iter ex_plain A2 = Ok [A1; A3] /\ adjlist_len ex_plain A2 = Ok 2%Z /\
  edge_getitem ex_plain A3 A2 "weight" = Ok 5%Z /\
  (nxstep ex_plain (NxDelEdge A3 A3)).2 = Err KeyError /\
  let n' := (nxstep ex_plain (NxAdj A1 (Some [(A3, EDict []); (NInt 4, EDict [("color"%string, 8%Z)])]))).1 in
  (adj_iter n', adjlist_iter n' A1, edge_getitem n' (NInt 4) A1 "weight") = ([A1; A2; A3; NInt 4], Ok [A2; A3; NInt 4], Ok 8%Z).
Proof. split; [apply run_hist0|]. by vm_compute. Qed.

Print Assumptions C50_restored_on_return.
Print Assumptions C50_installed_after_exception.
Print Assumptions C50_rejected_arguments.
Print Assumptions C50_sessions.
Print Assumptions C50_arguments.
Print Assumptions C50_later_graphs.
Print Assumptions C60_view.
Print Assumptions C60_write_edge.
Print Assumptions C60_write_attribute.
Print Assumptions C60_remove_edge.
Print Assumptions C60_write_adjacency.
Print Assumptions C60_refused.
Print Assumptions C60_histories.
