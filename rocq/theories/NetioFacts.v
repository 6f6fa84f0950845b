(** * Facts about reading UCINET files *)
From Verif Require Import Netio NetioSpec PropsNet PropsMpx MpxIter.
Local Open Scope nat_scope.

(** The rows of a file: row label and fields. *)
Fixpoint rows_fold {S} (cell : list name -> nat -> S -> nat * field -> res S) (emb : bool)
    (row : nat) (rl : list name) (s : S) (rows : list (string * list field)) : res (nat * list name * S) :=
  match rows with
  | [] => Ok (row, rl, s)
  | r :: rows =>
    let rl := if emb then rl ++ [NStr (r.1)] else rl in
    let? s := rfold (cell rl row) s (imap pair (r.2)) in rows_fold cell emb (Datatypes.S row) rl s rows
  end.

Section layout.
Context (n : nat) (emb : bool).
Context {S : Type} (cell : list name -> nat -> S -> nat * field -> res S).
Lemma urows_rest rest : forall acc row rl s, rest = [] \/ length (acc ++ concat rest) < n ->
  urows cell n emb acc row rl s rest = Ok (row, rl, s).
Proof.
  induction rest as [|l rest IH]; intros acc row rl s Hl; [done|]. destruct Hl as [Hl|Hl]; [done|]. simpl in *. rewrite !app_length in Hl.
  rewrite decide_True by (rewrite app_length; lia). apply IH. right. rewrite !app_length. lia.
Qed.
Lemma urows_pre pre : forall acc row rl s lines, length (acc ++ concat pre) < n ->
  urows cell n emb acc row rl s (pre ++ lines) = urows cell n emb (acc ++ concat pre) row rl s lines.
Proof.
  induction pre as [|l pre IH]; intros acc row rl s lines Hl; simpl in *; [by rewrite app_nil_r|]. rewrite !app_length in Hl.
  rewrite decide_True by (rewrite app_length; lia). rewrite IH by (rewrite !app_length; lia). by rewrite app_assoc.
Qed.
Lemma urows_layout rows lines : layout n emb rows lines -> forall row rl s,
  urows cell n emb [] row rl s lines = rows_fold cell emb row rl s rows.
Proof.
  intros (gs & rest & HF & -> & Hr). induction HF as [|r g rows gs Hg HF IH]; intros row rl s; cbn [concat].
  - apply urows_rest. simpl. destruct Hr; tauto.
  - destruct Hg as (pre & last & l0 & -> & Hp & Hn & He). rewrite <- !app_assoc. rewrite urows_pre by done.
    cbn [app urows]. simpl. rewrite He. assert (~ length (if emb then (r.1, l0) :: r.2 else r.2) < n) as Hnl. { clear -Hn. unfold field in *. destruct emb; simpl; lia. }
    rewrite decide_False by done. destruct emb; simpl.
    + rewrite decide_True by done. destruct (rfold _ _ _); [|done]. apply IH.
    + rewrite decide_True by done. destruct (rfold _ _ _); [|done]. apply IH.
Qed.
(** Whatever is accepted has this form. *)
Lemma urows_inv lines : 0 < n -> forall acc row rl s x, urows cell n emb acc row rl s lines = Ok x -> length acc < n ->
  exists rows gs rest, (rows = [] /\ (lines = [] \/ length (acc ++ concat lines) < n) \/
    exists r rows' g gs' pre last l0, rows = r :: rows' /\ gs = g :: gs' /\ g = pre ++ [last] /\ length (acc ++ concat pre) < n /\ length (r.2) = n /\
      acc ++ concat pre ++ last = (if emb then (r.1, l0) :: r.2 else r.2) /\ Forall2 (row_lines n emb) rows' gs' /\
      lines = concat gs ++ rest /\ (rest = [] \/ length (concat rest) < n)).
Proof.
  intros Hn0. induction lines as [|l lines IH]; intros acc row rl s x H Ha; simpl in H.
  - exists [], [], []. left. split; [done|]. by left.
  - destruct (decide (length (acc ++ l) < n)) as [Hlt|Hge].
    + destruct (IH _ _ _ _ _ H Hlt) as (rows & gs & rest & [[-> Hl]|Hl]).
      * exists [], [], []. left. split; [done|]. right. simpl. rewrite app_assoc. destruct Hl as [->|?]; [by rewrite app_nil_r|done].
      * destruct Hl as (r & rows' & g & gs' & pre & last & l0 & -> & -> & -> & H1 & H2 & H3 & H4 & -> & H5).
        exists (r :: rows'), ((l :: pre ++ [last]) :: gs'), rest. right. exists r, rows', (l :: pre ++ [last]), gs', (l :: pre), last, l0.
        split; [done|]. split; [done|]. split; [done|]. cbn [concat]. rewrite !app_assoc in *. done.
    + assert (exists r l0, acc ++ l = (if emb then (r.1, l0) :: r.2 else r.2) /\ length (r.2) = n /\
        exists s', rfold (cell (if emb then rl ++ [NStr r.1] else rl) row) s (imap pair (r.2)) = Ok s' /\
          urows cell n emb [] (Datatypes.S row) (if emb then rl ++ [NStr r.1] else rl) s' lines = Ok x) as (r & l0 & He & Hl & s' & _ & H').
      { destruct emb.
        - destruct (acc ++ l) as [|[f v] fs]; [done|]. simpl in H. destruct (decide (length fs = n)); [|done].
          destruct (rfold _ _ _) as [s'|] eqn:Ef; [|done]. exists (f, fs), v. split; [done|]. split; [done|]. exists s'. done.
        - simpl in H. destruct (decide (length (acc ++ l) = n)); [|done].
          destruct (rfold _ _ _) as [s'|] eqn:Ef; [|done]. exists (""%string, acc ++ l), None. split; [done|]. split; [done|]. exists s'. done. }
      destruct (IH _ _ _ _ _ H' Hn0) as (rows & gs & rest & [[-> Hr]|Hr]).
      * exists [r], [[l]], lines. right. exists r, [], [l], [], [], l, l0. simpl. rewrite app_nil_r. split_and!; try done.
      * destruct Hr as (r' & rows' & g & gs' & pre & last & l1 & -> & -> & -> & H1 & H2 & H3 & H4 & -> & H5).
        exists (r :: r' :: rows'), ([l] :: (pre ++ [last]) :: gs'), rest. right. exists r, (r' :: rows'), [l], ((pre ++ [last]) :: gs'), [], l, l0. simpl.
        rewrite app_nil_r. split_and!; try done. constructor; [|done]. exists pre, last, l1. done.
Qed.
Lemma urows_accepts lines row rl s x : 0 < n -> urows cell n emb [] row rl s lines = Ok x -> exists rows, layout n emb rows lines.
Proof.
  intros Hn H. destruct (urows_inv lines Hn [] row rl s x H Hn) as (rows & gs & rest & [[-> Hl]|Hl]).
  - exists [], [], lines. split; [constructor|]. split; [done|]. destruct Hl; [by left|by right].
  - destruct Hl as (r & rows' & g & gs' & pre & last & l0 & -> & -> & -> & H1 & H2 & H3 & H4 & -> & H5).
    exists (r :: rows'), ((pre ++ [last]) :: gs'), rest. split; [|done]. constructor; [|done]. by exists pre, last, l0.
Qed.
End layout.

(** ** What the rows do *)
Section rows.
Context {S C : Type} (H : list C -> S -> Prop) (cell : list name -> nat -> S -> nat * field -> res S) (op : nat -> nat -> list C).
Context (n : nat) (emb : bool) (rl0 rl : list name) (rows : list (string * list field)).
Hypothesis Hrl : rl = if emb then (fun r : string * list field => NStr (r.1)) <$> rows else rl0.
Hypothesis Hlen : forall r, r ∈ rows -> length (r.2) = n.
Hypothesis Hcell : forall R j row f rl' h s, rows !! R = Some row -> row.2 !! j = Some f ->
  (forall i, i <= R -> rl' !! i = rl !! i) -> H h s -> exists s', cell rl' R s (j, f) = Ok s' /\ H (h ++ op R j) s'.
Lemma row_run R row rl' : rows !! R = Some row -> (forall i, i <= R -> rl' !! i = rl !! i) -> forall h s, H h s ->
  exists s', rfold (cell rl' R) s (imap pair (row.2)) = Ok s' /\ H (h ++ (seq 0 n ≫= op R)) s'.
Proof.
  intros HR Hi. assert (length (row.2) = n) as Hn by (apply Hlen; by eapply elem_of_list_lookup_2).
  assert (forall L, (forall q, q ∈ L -> row.2 !! q.1 = Some (q.2)) -> forall h s, H h s ->
    exists s', rfold (cell rl' R) s L = Ok s' /\ H (h ++ ((fst <$> L) ≫= op R)) s') as HL.
  { induction L as [|[j f] L IH]; intros Hq h s Hs; simpl; [exists s; by rewrite app_nil_r|].
    destruct (Hcell R j row f rl' h s HR (Hq (j, f) ltac:(left)) Hi Hs) as (s1 & -> & Hs1). simpl.
    destruct (IH ltac:(intros; apply Hq; by right) _ _ Hs1) as (s2 & -> & Hs2). exists s2. split; [done|]. by rewrite app_assoc. }
  intros h s Hs. destruct (HL (imap pair (row.2))) with (h := h) (s := s) as (s' & E & Hs').
  - intros [j f] Hq. apply elem_of_lookup_imap in Hq as (j' & f' & [= -> ->] & Hl). done.
  - done.
  - exists s'. split; [done|]. replace (fst <$> imap pair row.2) with (seq 0 n) in Hs'; [done|].
    rewrite <- Hn. clear. apply list_eq. intros i. rewrite list_lookup_fmap, list_lookup_imap.
    destruct (decide (i < length (row.2))) as [Hi|Hi].
    + rewrite lookup_seq_lt by done. destruct (lookup_lt_is_Some_2 _ _ Hi) as [f ->]. done.
    + rewrite lookup_seq_ge by lia. by rewrite lookup_ge_None_2 by lia.
Qed.
Lemma rows_run : forall rows2 rows1, rows = rows1 ++ rows2 -> forall h s, H h s ->
  exists s', rows_fold cell emb (length rows1) (if emb then (fun r : string * list field => NStr (r.1)) <$> rows1 else rl0) s rows2 = Ok (length rows, rl, s') /\
    H (h ++ (seq (length rows1) (length rows2) ≫= fun R => seq 0 n ≫= op R)) s'.
Proof.
  induction rows2 as [|row rows2 IH]; intros rows1 Hr h s Hs.
  - exists s. simpl. rewrite app_nil_r in *. split; [|done]. subst rows1. by rewrite Hrl.
  - assert (rows !! length rows1 = Some row) as HR. { rewrite Hr. by rewrite list_lookup_middle. }
    cbn [rows_fold].
    assert (forall i, i <= length rows1 -> (if emb then (if emb then (fun r : string * list field => NStr (r.1)) <$> rows1 else rl0) ++ [NStr (row.1)]
      else if emb then (fun r : string * list field => NStr (r.1)) <$> rows1 else rl0) !! i = rl !! i) as Hi.
    { intros i Hle. rewrite Hrl. destruct emb; [|done]. rewrite Hr, fmap_app, fmap_cons. 
      generalize ((fun r : string * list field => NStr (r.1)) <$> rows2) as B. intros B. change (NStr (row.1) :: B) with ([NStr (row.1)] ++ B). rewrite app_assoc.
      rewrite (lookup_app_l _ B); [done|]. rewrite app_length, fmap_length. simpl. lia. }
    destruct (row_run _ _ _ HR Hi h s Hs) as (s1 & -> & Hs1). cbn [rbind].
    destruct (IH (rows1 ++ [row]) ltac:(by rewrite <- app_assoc) _ _ Hs1) as (s2 & E & Hs2). exists s2. split.
    + rewrite app_length, Nat.add_1_r in E. rewrite <- E. f_equal. destruct emb; [|done]. by rewrite fmap_app.
    + rewrite app_length, Nat.add_1_r in Hs2. cbn [length seq mbind list_bind]. by rewrite <- app_assoc in Hs2.
Qed.
End rows.

Lemma last_col (Q : nat -> Prop) `{!forall j, Decision (Q j)} n :
  (forall j, j < n -> ~ Q j) \/ exists j, j < n /\ Q j /\ forall j', j' < n -> Q j' -> ~ j < j'.
Proof.
  induction n as [|n IH]; [left; lia|]. destruct (decide (Q n)) as [Hq|Hq].
  - right. exists n. split; [lia|]. split; [done|]. lia.
  - destruct IH as [IH|(j & Hj & HQ & Hl)].
    + left. intros j Hj. destruct (decide (j = n)) as [->|]; [done|]. apply IH. lia.
    + right. exists j. split; [lia|]. split; [done|]. intros j' Hj' HQ'. destruct (decide (j' = n)) as [->|]; [done|]. apply Hl; [lia|done].
Qed.
Lemma last_pos (Q : nat -> nat -> Prop) `{!forall R j, Decision (Q R j)} n N :
  (forall R j, R < N -> j < n -> ~ Q R j) \/
  exists R j, R < N /\ j < n /\ Q R j /\ forall R' j', R' < N -> j' < n -> Q R' j' -> ~ (R < R' \/ R = R' /\ j < j').
Proof.
  induction N as [|N IH]; [left; lia|]. destruct (last_col (Q N) n) as [Hq|(j & Hj & Hq & Hl)].
  - destruct IH as [IH|(R & j & HR & Hj & HQ & Hl)].
    + left. intros R j HR Hj. destruct (decide (R = N)) as [->|]; [by apply Hq|]. apply IH; [lia|done].
    + right. exists R, j. split; [lia|]. split; [done|]. split; [done|]. intros R' j' HR' Hj' HQ'.
      destruct (decide (R' = N)) as [->|]; [by destruct (Hq j' Hj')|]. apply Hl; [lia|done|done].
  - right. exists N, j. split; [lia|]. split; [done|]. split; [done|]. intros R' j' HR' Hj' HQ' [?|[<- ?]]; [lia|]. by apply (Hl j').
Qed.
Lemma seq_bind_split {C} (f : nat -> list C) N R : R < N ->
  seq 0 N ≫= f = (seq 0 R ≫= f) ++ f R ++ (seq (S R) (N - S R) ≫= f).
Proof.
  intros HR. replace N with (R + (1 + (N - S R))) at 1 by lia. rewrite seq_app, bind_app. f_equal.
Qed.
Lemma names4 c r l a b : names_link 1 [c; r; l; l] a b <-> a = [c; l] /\ b = [r; l].
Proof.
  split.
  - intros Hn. inversion Hn as [? ? ? _ H1 H2 G1 G2|]; subst; [|done].
    destruct a as [|a0 [|a1 [|]]]; simpl in H1; try lia. destruct b as [|b0 [|b1 [|]]]; simpl in H2; try lia.
    pose proof (G1 0) as E1. pose proof (G1 1) as E2. pose proof (G2 0) as E3. pose proof (G2 1) as E4. simpl in *. by simplify_eq.
  - intros [-> ->]. change [c; r; l; l] with (interleave [c; l] [r; l]). by apply names_link_full.
Qed.

Lemma set4_assigns x y l v r l' x' y' w : massigns 1 false (MSet [x; y; l; l] v, r) (LBare l') x' y' w <->
  v = w /\ l = l' /\ (x = x' /\ y = y' \/ x = y' /\ y = x').
Proof.
  unfold massigns, mwrites. simpl. rewrite !names4. split.
  - intros [(_ & -> & E1 & E2)|(_ & _ & -> & E1 & E2)]; injection E1; injection E2; intros; subst; tauto.
  - intros (-> & -> & [[-> ->]|[-> ->]]); [left|right]; done.
Qed.
(** ** Several matrices *)
Section multi.
Context (n nm : nat) (ll rl cl : list name) (M : nat -> nat -> nat -> Z) (c : coupling) (fi : bool).
Hypothesis Hn : 0 < n.
Hypothesis Hll : nm <= length ll.
Hypothesis Hrl : n <= length rl.
Hypothesis Hcl : length cl = n.
Definition mop_at (R j : nat) : list call :=
  match ll !! (R / n), rl !! (R mod n), cl !! j with
  | Some l, Some y, Some x =>
    if decide (x = y) then [] else if decide (M (R / n) (R mod n) j = 0%Z) then []
    else [(MSet [x; y; l; l] (M (R / n) (R mod n) j), Ok tt)]
  | _, _, _ => []
  end.
Definition mops : list call := seq 0 (n * nm) ≫= fun R => seq 0 n ≫= mop_at R.
Lemma mop_cell rows : length rows = n * nm -> matrices n rl cl rows M ->
  forall R j row f rl' h s, rows !! R = Some row -> row.2 !! j = Some f -> length (row.2) = n ->
  (forall i, i <= R -> rl' !! i = rl !! i) -> mhist [c] false 0 fi h s ->
  exists s', cellm n ll cl rl' R s (j, f) = Ok s' /\ mhist [c] false 0 fi (h ++ mop_at R j) s'.
Proof.
  intros Hlr HM R j row f rl' h s HR Hj Hlen Hi Hs. pose proof (lookup_lt_Some _ _ _ HR) as HRl. pose proof (lookup_lt_Some _ _ _ Hj) as Hjl.
  assert (R = R / n * n + R mod n) as Hdm. { pose proof (Nat.div_mod_eq R n). lia. }
  assert (R mod n < n) as Hm by (apply Nat.mod_upper_bound; lia).
  assert (R / n < nm) as Hk by (apply Nat.div_lt_upper_bound; lia).
  destruct (lookup_lt_is_Some_2 ll (R / n) ltac:(lia)) as [l Hl]. destruct (lookup_lt_is_Some_2 rl (R mod n) ltac:(lia)) as [y Hy].
  destruct (lookup_lt_is_Some_2 cl j ltac:(lia)) as [x Hx].
  unfold mop_at. rewrite Hl, Hy, Hx. unfold cellm, label_at. cbn [fst snd]. rewrite Hx. cbn [rbind].
  rewrite Hi by (by apply Nat.mod_le; lia). rewrite Hy. cbn [rbind].
  destruct (decide (x = y)) as [|Hxy]; [exists s; by rewrite app_nil_r|].
  assert (f.2 = Some (M (R / n) (R mod n) j)) as Hf. { apply (HM (R / n) (R mod n) j row f y x); try done. by rewrite <- Hdm. }
  unfold float_of. rewrite Hf. cbn [rbind]. destruct (decide (M (R / n) (R mod n) j = 0%Z)) as [|Hz]; [exists s; by rewrite app_nil_r|].
  rewrite Hl. cbn [rbind]. destruct (mstep s (MSet [x; y; l; l] (M (R / n) (R mod n) j))) as [s' r] eqn:E.
  destruct (C21_accepted_write _ _ _ _ _ _ _ [x; l] [y; l] _ _ _ Hs ltac:(simpl; lia) (proj2 (names4 x y l _ _) (conj eq_refl eq_refl)) eq_refl ltac:(done) E) as [-> _].
  exists s'. simpl in E. unfold out_res. rewrite E. split; [done|]. by eapply mhist_op.
Qed.
Lemma mop_at_in R j e : e ∈ mop_at R j <-> exists l x y, ll !! (R / n) = Some l /\ rl !! (R mod n) = Some y /\ cl !! j = Some x /\ x <> y /\
  M (R / n) (R mod n) j <> 0%Z /\ e = (MSet [x; y; l; l] (M (R / n) (R mod n) j), Ok tt).
Proof.
  unfold mop_at. destruct (ll !! (R / n)) as [l|]; [|split; [by intros ?%elem_of_nil|by intros (? & ? & ? & ? & _)]].
  destruct (rl !! (R mod n)) as [y|]; [|split; [by intros ?%elem_of_nil|by intros (? & ? & ? & _ & ? & _)]].
  destruct (cl !! j) as [x|]; [|split; [by intros ?%elem_of_nil|by intros (? & ? & ? & _ & _ & ? & _)]].
  destruct (decide (x = y)) as [|Hxy]; [split; [by intros ?%elem_of_nil|intros (? & ? & ? & ? & ? & ? & ? & _); congruence]|].
  destruct (decide _) as [|Hz]; [split; [by intros ?%elem_of_nil|intros (? & ? & ? & ? & ? & ? & ? & ? & _); congruence]|].
  rewrite elem_of_list_singleton. split; [intros ->; by exists l, x, y|]. intros (? & ? & ? & ? & ? & ? & ? & ? & ->). congruence.
Qed.
Lemma mops_in e : e ∈ mops <-> exists k i j l x y, k < nm /\ i < n /\ ll !! k = Some l /\ rl !! i = Some y /\ cl !! j = Some x /\ x <> y /\
  M k i j <> 0%Z /\ e = (MSet [x; y; l; l] (M k i j), Ok tt).
Proof.
  unfold mops. rewrite elem_of_list_bind. setoid_rewrite elem_of_list_bind. setoid_rewrite mop_at_in. setoid_rewrite elem_of_seq. split.
  - intros (R & (j & (l & x & y & Hl & Hy & Hx & Hxy & Hz & ->) & _) & HR). exists (R / n), (R mod n), j, l, x, y.
    split; [apply Nat.div_lt_upper_bound; lia|]. split; [apply Nat.mod_upper_bound; lia|]. done.
  - intros (k & i & j & l & x & y & Hk & Hi & Hl & Hy & Hx & Hxy & Hz & ->). exists (k * n + i). split; [|nia].
    assert ((k * n + i) / n = k) as -> by (symmetry; eapply Nat.div_unique; [exact Hi|lia]).
    assert ((k * n + i) mod n = i) as -> by (symmetry; eapply Nat.mod_unique; [exact Hi|instantiate (1 := k); lia]).
    exists j. split; [by exists l, x, y|]. apply lookup_lt_Some in Hx. lia.
Qed.
Lemma mops_last F l x y w : x <> y -> (forall e w', e ∈ F -> ~ massigns 1 false e (LBare l) x y w') ->
  last_nonzero M (about n nm ll rl cl l x y) w -> mlast 1 false (mops ++ F) (LBare l) x y w.
Proof.
  intros Hxy HF [(k & i & j & (Hk & Hi & Hl & Hxy') & HM & Hw & Hlast)|[-> Hz]].
  - set (R := k * n + i). assert (R / n = k) as HRk by (symmetry; eapply Nat.div_unique; [exact Hi|unfold R; lia]).
    assert (R mod n = i) as HRi by (symmetry; eapply Nat.mod_unique; [exact Hi|instantiate (1 := k); unfold R; lia]).
    assert (R < n * nm) as HR by (unfold R; nia).
    assert (exists x0 y0, rl !! i = Some y0 /\ cl !! j = Some x0 /\ (x0 = x /\ y0 = y \/ x0 = y /\ y0 = x)) as (x0 & y0 & Hy0 & Hx0 & Hor).
    { destruct Hxy' as [[? ?]|[? ?]]; eexists _, _; eauto. }
    assert (j < n) as Hj by (apply lookup_lt_Some in Hx0; lia).
    assert (x0 <> y0) as Hne. { destruct Hor as [[-> ->]|[-> ->]]; congruence. }
    assert (mop_at R j = [(MSet [x0; y0; l; l] w, Ok tt)]) as Hop.
    { unfold mop_at. rewrite HRk, HRi, Hl, Hy0, Hx0, decide_False by done. rewrite decide_False by congruence. by rewrite HM. }
    left. unfold mops. rewrite (seq_bind_split _ _ R HR), (seq_bind_split (mop_at R) _ j Hj), Hop. rewrite <- !app_assoc.
    eexists (_ ++ _), _, _. split; [rewrite <- app_assoc; reflexivity|]. split; [apply set4_assigns; split; [done|]; split; [done|]; tauto|].
    assert (forall R' j' e' w', e' ∈ mop_at R' j' -> j' < n -> R' < n * nm -> (R < R' \/ R = R' /\ j < j') -> ~ massigns 1 false e' (LBare l) x y w') as Hafter.
    { intros R' j' e' w' He' Hj' HR' Hlt. apply mop_at_in in He' as (l1 & x1 & y1 & Hl1 & Hy1 & Hx1 & Hxy1 & Hz1 & ->). rewrite set4_assigns.
      intros (_ & -> & Hor'). assert (R' mod n < n) as Hm' by (apply Nat.mod_upper_bound; lia). pose proof (Nat.div_mod_eq R' n) as Hdm. apply Hz1, Hlast.
      - split; [apply Nat.div_lt_upper_bound; lia|]. split; [done|]. split; [done|]. destruct Hor' as [[-> ->]|[-> ->]]; tauto.
      - unfold later. destruct Hlt as [Hlt|[<- Hlt]]; [|rewrite HRk, HRi; lia].
        assert (k <= R' / n). { rewrite <- HRk. apply Nat.div_le_mono; lia. }
        destruct (decide (k < R' / n)) as [|Hge]; [by left|]. right. assert (R' / n = k) as Hek by lia. split; [done|]. left. unfold R in Hlt. rewrite Hek in Hdm. lia. }
    intros e' w' He'. rewrite !elem_of_app in He'. destruct He' as [He'|[He'|He']]; [| |by apply HF].
    + apply elem_of_list_bind in He' as (j' & He' & Hj'). apply elem_of_seq in Hj'. apply (Hafter R j'); [done|lia|done|lia].
    + apply elem_of_list_bind in He' as (R' & He' & HR'). apply elem_of_seq in HR'. apply elem_of_list_bind in He' as (j' & He' & Hj'). apply elem_of_seq in Hj'.
      apply (Hafter R' j'); [done|lia|lia|lia].
  - right. split; [done|]. intros e w' He. apply elem_of_app in He as [He|He]; [|by apply HF].
    apply mops_in in He as (k & i & j & l1 & x1 & y1 & Hk & Hi & Hl & Hy & Hx & Hne & Hnz & ->). rewrite set4_assigns. intros (_ & -> & Hor).
    apply Hnz, Hz. split; [done|]. split; [done|]. split; [done|]. destruct Hor as [[-> ->]|[-> ->]]; tauto.
Qed.
End multi.
Lemma last_nonzero_exists n nm ll rl cl M l x y : 0 < n -> length cl = n -> exists w, last_nonzero M (about n nm ll rl cl l x y) w.
Proof.
  intros Hn Hcl.
  destruct (last_pos (fun R j => (R / n < nm /\ R mod n < n /\ ll !! (R / n) = Some l /\
    (rl !! (R mod n) = Some x /\ cl !! j = Some y \/ rl !! (R mod n) = Some y /\ cl !! j = Some x)) /\ M (R / n) (R mod n) j <> 0%Z) n (n * nm)) as [Hz|(R & j & HR & Hj & [Ha Hm] & Hl)].
  - exists 0%Z. right. split; [done|]. intros k i j Ha. pose proof Ha as (Hk & Hi & _ & Hor). apply dec_stable. intros Hnz.
    assert (j < n) as Hj by (destruct Hor as [[_ ?%lookup_lt_Some]|[_ ?%lookup_lt_Some]]; lia).
    apply (Hz (k * n + i) j); [nia|done|].
    assert ((k * n + i) / n = k) as -> by (symmetry; eapply Nat.div_unique; [exact Hi|lia]).
    assert ((k * n + i) mod n = i) as -> by (symmetry; eapply Nat.mod_unique; [exact Hi|instantiate (1 := k); lia]). done.
  - exists (M (R / n) (R mod n) j). left. exists (R / n), (R mod n), j. split; [done|]. split; [done|]. split; [done|].
    intros k i j' Ha' Hlat. pose proof Ha' as (Hk & Hi & _ & Hor). apply dec_stable. intros Hnz.
    assert (j' < n) as Hj' by (destruct Hor as [[_ ?%lookup_lt_Some]|[_ ?%lookup_lt_Some]]; lia).
    assert ((k * n + i) / n = k) as Ek by (symmetry; eapply Nat.div_unique; [exact Hi|lia]).
    assert ((k * n + i) mod n = i) as Ei by (symmetry; eapply Nat.mod_unique; [exact Hi|instantiate (1 := k); lia]).
    apply (Hl (k * n + i) j'); [nia|done|by rewrite Ek, Ei|]. pose proof (Nat.div_mod_eq R n). pose proof (Nat.mod_upper_bound R n ltac:(lia)).
    destruct Hlat as [Hlat|[Hlat [Hlat2|[Hlat2 Hlat3]]]]; [left; nia|left; nia|right; split; [nia|done]].
Qed.
