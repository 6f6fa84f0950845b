(** * Networks built by library code: sequences of calls on a fresh network *)
From Verif Require Export NetEdges.

(** One call made by library code on a network it is building: if the call raises,
    the library function raises and the network is lost. *)
Definition do_op (n : mlnet) (o : op) : res mlnet :=
  match step n o with (n', Ok _) => Ok n' | (_, Err e) => Err e end.
(** [for x in l: net.op(...)] *)
Definition build (n : mlnet) (os : list op) : res mlnet := rfold do_op n os.

Lemma do_op_hist asp noe dir fi g n o n' : hist asp noe dir fi g n -> do_op n o = Ok n' -> hist asp noe dir fi (g ++ [o]) n'.
Proof.
  intros H. unfold do_op. destruct (step n o) as [m [u|e]] eqn:E; [|done]. intros [= <-].
  pose proof (hist_op _ _ _ _ _ _ o H) as H'. by rewrite E in H'.
Qed.
Lemma build_hist asp noe dir fi os : forall g n n', hist asp noe dir fi g n -> build n os = Ok n' -> hist asp noe dir fi (g ++ os) n'.
Proof.
  induction os as [|o os IH]; intros g n n' H; cbn; [intros [= <-]; by rewrite app_nil_r|].
  destruct (do_op n o) as [m|e] eqn:E; [|done]. intros Hb. replace (g ++ o :: os) with ((g ++ [o]) ++ os) by by rewrite <- app_assoc.
  eapply IH; [|done]. by eapply do_op_hist.
Qed.
Lemma build_app n os1 os2 : build n (os1 ++ os2) = let? m := build n os1 in build m os2.
Proof. apply rfold_app. Qed.

(** Calls that cannot raise. *)
Definition op_ok (asp : nat) (noe : Z) (dir fi : bool) (n : mlnet) (o : op) : Prop :=
  match o with
  | OpAddNode _ None => True
  | OpAddNode _ (Some l) => fi = true \/ asp = 0 \/ layer_form asp l
  | OpAddLayer _ k => k <= asp
  | _ => exists a b w, write_of asp o = Some (a, b, w) /\ (w = noe -> dir = false -> a = b -> rd n a b = noe)
  end.
Lemma rd_lnk n a b : good n -> rd n a b = noEdge n <-> lnk n a b = None.
Proof.
  intros Hg. pose proof (rd_noEdge n a b Hg) as H. destruct (lnk n a b) eqn:E.
  - split; [|done]. intros He. exfalso. by apply (proj2 H).
  - split; [done|]. intros _. destruct (decide (rd n a b = noEdge n)); [done|]. apply H in n0. by destruct n0.
Qed.
Lemma do_op_ok asp noe dir fi g n o : hist asp noe dir fi g n -> op_ok asp noe dir fi n o -> exists n', do_op n o = Ok n'.
Proof.
  intros H Ho. destruct (hist_inv _ _ _ _ _ _ H) as [HS HL Ha Hn Hd Hf]. pose proof (hist_good _ _ _ _ _ _ H) as Hg.
  assert (exists n', step n o = (n', Ok tt)) as [n' E]; [|exists n'; unfold do_op; by rewrite E].
  destruct (step n o) as [n' r] eqn:E. exists n'. f_equal.
  destruct (step_spec n o n' r HS HL E) as (_ & _ & _ & _ & _ & _ & _ & _ & Hr & _).
  assert (Hwr : forall a b w, write_of asp o = Some (a, b, w) -> (w = noe -> dir = false -> a = b -> rd n a b = noe) -> r = Ok tt).
  { intros a b w Hw Hc. rewrite (Hr a b w) by by rewrite Ha. rewrite decide_False; [done|].
    intros (H1 & H2 & H3 & H4). rewrite <- Hn in Hc. rewrite Hn in H1. rewrite Hd in H2. rewrite <- Hn in H1.
    specialize (Hc H1 H2 H3). apply rd_lnk in Hc; [|done]. rewrite Hc in H4. by destruct H4. }
  destruct o as [item v|a b v|x [l|]|l k]; simpl in Ho.
  - destruct Ho as (a & b & w & Hw & Hc). by apply (Hwr a b w).
  - destruct Ho as (a' & b' & w & Hw & Hc). by apply (Hwr a' b' w).
  - destruct (add_node_wfS n x (Some l) n' r HS E) as (_ & _ & _ & _ & _ & H1 & H2 & H3).
    rewrite Hf, Ha in *. destruct (decide (asp = 0)) as [H0|H0]; [by apply H1|].
    destruct Ho as [->|[?|Hl]]; [by apply H1|done|]. destruct l as [y|ls]; simpl in Hl; [by eapply H2|].
    destruct Hl. eapply H3; [done|done|lia].
  - destruct (add_node_wfS n x None n' r HS E) as (_ & _ & _ & _ & H1 & _). by apply H1.
  - destruct (add_layer_wfS n l k n' r HS E) as (_ & _ & H1 & _). apply H1. by rewrite Ha.
Qed.

(** Calls that never raise, whatever the links are. *)
Definition op_safe (asp : nat) (noe : Z) (dir fi : bool) (o : op) : Prop :=
  match o with
  | OpAddNode _ None => True
  | OpAddNode _ (Some l) => fi = true \/ asp = 0 \/ layer_form asp l
  | OpAddLayer _ k => k <= asp
  | _ => exists a b w, write_of asp o = Some (a, b, w) /\ (w <> noe \/ dir = true \/ a <> b)
  end.
Lemma op_safe_ok asp noe dir fi n o : op_safe asp noe dir fi o -> op_ok asp noe dir fi n o.
Proof.
  destruct o as [item v|a b v|x [l|]|l k]; simpl; try done; intros (a' & b' & w & H & Hs); exists a', b', w; (split; [done|]);
    intros -> -> ->; by destruct Hs as [?|[?|?]].
Qed.
Lemma build_ok asp noe dir fi os : forall g n, hist asp noe dir fi g n -> Forall (op_safe asp noe dir fi) os ->
  exists n', build n os = Ok n' /\ hist asp noe dir fi (g ++ os) n'.
Proof.
  induction os as [|o os IH]; intros g n H Hs; cbn; [exists n; by rewrite app_nil_r|].
  apply Forall_cons in Hs as [Ho Hs]. destruct (do_op_ok _ _ _ _ _ _ o H (op_safe_ok _ _ _ _ _ _ Ho)) as [m E]. rewrite E.
  destruct (IH (g ++ [o]) m (do_op_hist _ _ _ _ _ _ _ _ H E) Hs) as (n' & Hb & Hh). exists n'. split; [done|].
  by rewrite <- app_assoc in Hh.
Qed.
Lemma build_new_ok asp noe dir fi os : Forall (op_safe asp noe dir fi) os ->
  exists n', build (new_net asp noe dir fi) os = Ok n' /\ hist asp noe dir fi os n'.
Proof. intros Hs. apply (build_ok asp noe dir fi os [] _ (hist_init _ _ _ _) Hs). Qed.

(** ** What is read after a list of calls *)
Lemma spec_run_app asp noe dir h1 h2 x y :
  spec_run asp noe dir (h1 ++ h2) x y = fold_left (spec_step asp dir) h2 (spec_run asp noe dir h1) x y.
Proof. unfold spec_run. by rewrite fold_left_app. Qed.
Lemma spec_run_snoc asp noe dir h o x y :
  spec_run asp noe dir (h ++ [o]) x y = spec_step asp dir (spec_run asp noe dir h) o x y.
Proof. by rewrite spec_run_app. Qed.
Lemma spec_fold_miss asp dir os s x y : (forall o a b w, o ∈ os -> write_of asp o = Some (a, b, w) -> ~ hit dir a b x y) ->
  fold_left (spec_step asp dir) os s x y = s x y.
Proof.
  revert s. induction os as [|o os IH]; intros s H; [done|]. cbn [fold_left]. rewrite IH.
  - unfold spec_step. destruct (write_of asp o) as [[[a b] w]|] eqn:E; [|done]. rewrite decide_False; [done|]. eapply H; [left|done].
  - intros o' a b w Ho. apply H. by right.
Qed.
Lemma spec_fold_agree asp dir os s x y v :
  (forall o a b w, o ∈ os -> write_of asp o = Some (a, b, w) -> hit dir a b x y -> w = v) ->
  (exists o a b w, o ∈ os /\ write_of asp o = Some (a, b, w) /\ hit dir a b x y) ->
  fold_left (spec_step asp dir) os s x y = v.
Proof.
  revert s. induction os as [|o os IH]; intros s H (o1 & a & b & w & Ho & Hw & Hh); [by apply elem_of_nil in Ho|].
  cbn [fold_left].
  assert ((exists o a b w, o ∈ os /\ write_of asp o = Some (a, b, w) /\ hit dir a b x y) \/
          (forall o a b w, o ∈ os -> write_of asp o = Some (a, b, w) -> ~ hit dir a b x y)) as [Hex|Hno].
  { clear. induction os as [|o os IH]; [right; intros ? ? ? ? Ho; by apply elem_of_nil in Ho|].
    destruct IH as [(o1 & a & b & w & Ho & Hw & Hh)|Hno]; [left; exists o1, a, b, w; split; [by right|done]|].
    destruct (write_of asp o) as [[[a b] w]|] eqn:E.
    - destruct (decide (hit dir a b x y)) as [Hh|Hh]; [left; exists o, a, b, w; split; [left|done]|].
      right. intros o' a' b' w' Ho Hw. apply elem_of_cons in Ho as [->|Ho]; [|by eapply Hno]. rewrite E in Hw. by injection Hw as <- <- <-.
    - right. intros o' a' b' w' Ho Hw. apply elem_of_cons in Ho as [->|Ho]; [congruence|by eapply Hno]. }
  - apply IH; [|done]. intros o' a' b' w' Ho'. apply H. by right.
  - rewrite spec_fold_miss by done. apply elem_of_cons in Ho as [->|Ho]; [|exfalso; by eapply Hno].
    unfold spec_step. rewrite Hw. rewrite decide_True by done. eapply H; [left|done|done].
Qed.
Definition structural (o : op) : Prop := match o with OpAddNode _ _ | OpAddLayer _ _ => True | _ => False end.
Lemma structural_write asp o : structural o -> write_of asp o = None.
Proof. by destruct o. Qed.
Lemma spec_run_structural asp noe dir os x y : Forall structural os -> spec_run asp noe dir os x y = noe.
Proof.
  intros H. unfold spec_run. rewrite spec_fold_miss; [done|]. intros o a b w Ho Hw. rewrite Forall_forall in H.
  rewrite structural_write in Hw by auto. done.
Qed.
Lemma write_of_interleave asp a b w : length a = S asp -> length b = S asp ->
  write_of asp (OpSet (interleave a b) w) = Some (a, b, w).
Proof. intros Ha Hb. apply writes_spec. split; [done|]. by apply names_link_full. Qed.
