(** * Property C92: node handles *)
From stdpp Require Import prelude.
From Verif Require Import Base Net NetSpec NetFacts NetHist NetIter NodeH PropsNet.
Local Open Scope nat_scope.

(** What a call of a method with the arguments [layers] asks of a handle with the restriction [own]:
    no arguments mean the restriction of the handle, arguments replace it. *)
Definition asks (asp : nat) (own : option (list (option name))) (layers : list (option name)) (ds : option (list (option name))) : Prop :=
  (layers = [] /\ ds = own) \/ (length layers = S asp /\ ds = Some layers).
Lemma asks_dims n own layers ds : asks (aspects n) own layers ds -> node_dims n own layers = Ok ds.
Proof. intros [[-> ->]|[Hl ->]]; unfold node_dims; [done|]. rewrite decide_False by lia. by rewrite decide_True. Qed.
Lemma asks_ok n own layers ds : dims_ok n own -> asks (aspects n) own layers ds -> dims_ok n ds.
Proof. intros H [[_ ->]|[Hl ->]]; done. Qed.
Lemma slice_dims_length k item : length item = 2 * k -> length (slice_dims item) = k.
Proof. revert item. induction k as [|k IH]; intros item Hl; [by destruct item|]. destruct item as [|x [|y item]]; cbn in Hl; [lia|lia|]. cbn. f_equal. apply IH. lia. Qed.
Lemma evens_length {A} k (l : list A) : length l = 2 * k -> length (evens l) = k.
Proof. revert l. induction k as [|k IH]; intros l Hl; [by destruct l|]. destruct l as [|x [|y l]]; cbn in Hl; [lia|lia|]. cbn. f_equal. apply IH. lia. Qed.
(** Every handle of a network names a node-layer, and its restriction has one entry per coordinate. *)
Theorem C92_handle n item h : node_handle n item = Ok h -> length (hnode h) = S (aspects n) /\ dims_ok n (hlayers h).
Proof.
  unfold node_handle. intros H. destruct (getitem n item) as [[a ds|w]|] eqn:E; cbn [rbind] in H; [|done|done]. injection H as <-. cbn [hnode hlayers].
  assert (forall it, length it = 2 * S (aspects n) -> getitem_full n it = Ok (GNode a ds) -> length a = S (aspects n) /\ dims_ok n ds) as Hf.
  { intros it Hl. unfold getitem_full. destruct (mapM idx_name (evens it)) as [a'|] eqn:Ea; [|done]. destruct (decide _).
    - intros [= <- <-]. split; [|by apply slice_dims_length]. apply mapM_Some, Forall2_length in Ea. rewrite <- Ea. by apply evens_length.
    - destruct (mapM idx_name it); done. }
  unfold getitem in E. destruct (decide (length item = S (aspects n))) as [Hl|].
  - destruct (mapM idx_name item) as [a'|] eqn:Ea; [|done]. injection E as <- <-. split; [|done]. apply mapM_Some, Forall2_length in Ea. lia.
  - destruct (decide (length item = 2 * S (aspects n))); [by apply (Hf item)|]. destruct (decide _); [|done]. destruct (decide _); [done|].
    eapply Hf; [|exact E]. apply short_link_length; lia.
Qed.
(** The methods count, or add up the weights of, exactly the neighbours that meet the restriction asked for. *)
Theorem C92_degrees asp noe dir fi hs n : hist asp noe dir fi hs n -> forall h layers ds, dims_ok n (hlayers h) -> asks asp (hlayers h) layers ds ->
  (exists L, lists_exactly L (fun b => linked n (hnode h) b /\ matches ds b) /\ node_deg_out n h layers = Ok (Z.of_nat (length L))) /\
  (exists L, lists_exactly L (fun b => linked n b (hnode h) /\ matches ds b) /\ node_deg_in n h layers = Ok (Z.of_nat (length L))) /\
  (dir = false \/ ds <> None -> exists L, lists_exactly L (fun b => (linked n (hnode h) b \/ linked n b (hnode h)) /\ matches ds b) /\ node_deg n h layers = Ok (Z.of_nat (length L))) /\
  (layers = [] -> node_len n h = node_deg n h layers).
Proof.
  intros H h layers ds Hd Ha. destruct (hist_inv _ _ _ _ _ _ H) as [_ _ Hasp _ _ _]. rewrite <- Hasp in Ha. pose proof (asks_ok _ _ _ _ Hd Ha) as Hds.
  apply asks_dims in Ha as E. unfold node_deg_out, node_deg_in, node_deg, node_len, node_deg. rewrite E. cbn [rbind].
  destruct (C07_degrees_exact _ _ _ _ _ _ H (hnode h) ds Hds) as [(L1 & H1 & ->) (L2 & H2 & ->)]. split_and!.
  - by exists L1.
  - by exists L2.
  - intros Hc. destruct (C08_total_degree_exact _ _ _ _ _ _ H (hnode h) ds Hds Hc) as (L3 & H3 & ->). by exists L3.
  - intros ->. by rewrite E.
Qed.
Theorem C92_strengths asp noe dir fi hs n : hist asp noe dir fi hs n -> forall h layers ds, dims_ok n (hlayers h) -> asks asp (hlayers h) layers ds ->
  exists so si, node_str_out n h layers = Ok so /\ node_str_in n h layers = Ok si /\ node_str n h layers = Ok (if dir then si + so else so)%Z /\
  (exists L f, lists_exactly L (fun b => linked n (hnode h) b /\ matches ds b) /\ (forall b, b ∈ L -> reads n (hnode h) b (f b)) /\ so = zsumf f L) /\
  (exists L f, lists_exactly L (fun b => linked n b (hnode h) /\ matches ds b) /\ (forall b, b ∈ L -> reads n b (hnode h) (f b)) /\ si = zsumf f L).
Proof.
  intros H h layers ds Hd Ha. destruct (hist_inv _ _ _ _ _ _ H) as [_ _ Hasp _ _ _]. rewrite <- Hasp in Ha. pose proof (asks_ok _ _ _ _ Hd Ha) as Hds.
  apply asks_dims in Ha as E. unfold node_str_out, node_str_in, node_str. rewrite E. cbn [rbind].
  destruct (C09_strengths_exact _ _ _ _ _ _ H (hnode h) ds Hds) as (H1 & H2 & H3). eexists _, _. split; [done|]. split; [done|]. rewrite H3. done.
Qed.
(** Another number of arguments: AssertionError. *)
Theorem C92_wrong_number n h layers : layers <> [] -> length layers <> S (aspects n) ->
  node_deg n h layers = Err AssertionError /\ node_deg_in n h layers = Err AssertionError /\ node_deg_out n h layers = Err AssertionError /\
  node_str n h layers = Err AssertionError /\ node_str_in n h layers = Err AssertionError /\ node_str_out n h layers = Err AssertionError.
Proof.
  intros H1 H2. assert (node_dims n (hlayers h) layers = Err AssertionError) as E.
  { unfold node_dims. rewrite decide_False by (by destruct layers). by rewrite decide_False. }
  unfold node_deg, node_deg_in, node_deg_out, node_str, node_str_in, node_str_out. by rewrite E.
Qed.
(** Iterating a handle lists exactly the neighbours that meet its restriction, once each; in a network without aspects
    the one-element tuples stand for bare nodes. *)
Lemma bare_ok n f h (P : nl -> Prop) : (forall b, P b -> length b = S (aspects n)) -> lists_exactly (f n (hnode h) (hlayers h)) P ->
  exists L, node_iter n f h = Ok L /\ lists_exactly L P.
Proof.
  intros Hlen HL. unfold node_iter. destruct (decide (0 < aspects n)); [by eexists|]. exists (f n (hnode h) (hlayers h)). split; [|done].
  assert (forall l : list nl, (forall b, b ∈ l -> length b = 1) -> rmapM (fun b : nl => match b !! 0 with Some x => Ok [x] | None => Err IndexError end) l = Ok l) as Hm.
  { induction l as [|b l IH]; intros Hb; [done|]. cbn [rmapM]. assert (length b = 1) as Hb1 by (apply Hb; by left). destruct b as [|x [|y b]]; cbn in Hb1; [lia| |lia].
    cbn [lookup list_lookup rbind]. rewrite IH; [done|]. intros; apply Hb; by right. }
  apply Hm. intros b Hb. destruct HL as [_ HL]. apply HL, Hlen in Hb. lia.
Qed.
Theorem C92_iter asp noe dir fi hs n : hist asp noe dir fi hs n -> forall h, dims_ok n (hlayers h) ->
  (exists L, node_iter_out n h = Ok L /\ lists_exactly L (fun b => linked n (hnode h) b /\ matches (hlayers h) b)) /\
  (exists L, node_iter_in n h = Ok L /\ lists_exactly L (fun b => linked n b (hnode h) /\ matches (hlayers h) b)) /\
  (exists L, node_iter_total n h = Ok L /\ lists_exactly L (fun b => (linked n (hnode h) b \/ linked n b (hnode h)) /\ matches (hlayers h) b)).
Proof.
  intros H h Hd. destruct (C06_neighbours_exact _ _ _ _ _ _ H (hnode h) (hlayers h) Hd) as (H1 & H2 & H3).
  split_and!; apply bare_ok; try done.
  - by intros b [(_ & ? & _) _].
  - by intros b [(? & _) _].
  - by intros b [[(_ & ? & _)|(? & _)] _].
Qed.
Example C92_example : node_handle ex_n2 (INm <$> [A1; La; Lb]) = Ok (MkHandle [A1; La; Lb] None) /\
  node_handle ex_n2 [INm A1; IColon; INm La; INm La; INm Lb; IColon] = Ok (MkHandle [A1; La; Lb] (Some [None; Some La; None])) /\
  node_deg_out ex_n2 (MkHandle [A1; La; Lb] None) [] = Ok 1%Z /\ node_deg_out ex_n2 (MkHandle [A1; La; Lb] None) [None; Some La; Some Lb] = Ok 0%Z /\
  node_str ex_n2 (MkHandle [A1; La; Lb] None) [None; None; Some Lc] = Ok 5%Z /\ node_deg ex_n2 (MkHandle [A1; La; Lb] None) [None] = Err AssertionError /\
  node_iter_total ex_n2 (MkHandle [A1; La; Lb] (Some [None; Some La; None])) = Ok [[A2; La; Lc]].
Proof. by vm_compute. Qed.
Print Assumptions C92_handle.
Print Assumptions C92_degrees.
Print Assumptions C92_strengths.
Print Assumptions C92_wrong_number.
Print Assumptions C92_iter.
