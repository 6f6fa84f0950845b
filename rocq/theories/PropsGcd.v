(** * Property C94: the graphlet correlation distance *)
From stdpp Require Import prelude.
From Coq Require Import QArith Lqa.
From Verif Require Import Base Gcd.
Local Open Scope nat_scope.

(** An array with [r] rows of [c] numbers. *)
Definition is_matrix (r c : nat) (m : matrix) : Prop := length m = r /\ forall row, row ∈ m -> length row = c.
(** The number in row [i] and column [j]. *)
Definition at_ (m : matrix) (i j : nat) : Q := default 0%Q (m !! i ≫= fun r => r !! j).
(** The positions above the diagonal. *)
Definition above (r c : nat) : list (nat * nat) := seq 0 r ≫= (fun i => (fun j => (i, j)) <$> seq (i + 1) (c - (i + 1))).
Definition qsq (f g : nat * nat -> Q) (l : list (nat * nat)) : Q := foldr (fun p q => (f p - g p) * (f p - g p) + q)%Q 0%Q l.
Definition ent (m : matrix) (p : nat * nat) : Q := at_ m (p.1) (p.2).
(** [p] is at least the distance whose square is [s]. *)
Definition at_least (p s : Q) : Prop := (0 <= p)%Q /\ (s <= p * p)%Q.

Lemma entry_ok r c m i j : is_matrix r c m -> i < r -> j < c -> entry m i j = Ok (at_ m i j).
Proof.
  intros [Hr Hc] Hi Hj. unfold entry, at_. destruct (m !! i) as [row|] eqn:E; [|apply lookup_ge_None in E; lia]. cbn.
  assert (length row = c) as Hl by (apply Hc; by eapply elem_of_list_lookup_2). destruct (row !! j) as [x|] eqn:Ex; [done|]. apply lookup_ge_None in Ex. lia.
Qed.
Lemma row_len r c m i : is_matrix r c m -> i < r -> length (default [] (m !! i)) = c.
Proof. intros [Hr Hc] Hi. destruct (m !! i) as [row|] eqn:E; [|apply lookup_ge_None in E; lia]. cbn. apply Hc. by eapply elem_of_list_lookup_2. Qed.
Lemma shape_ok r c m : is_matrix r c m -> 0 < r -> shape m = (r, c).
Proof. intros H Hr. unfold shape. rewrite (row_len r c m 0 H Hr). f_equal. apply H. Qed.
Lemma qsq_app f g l1 l2 : (qsq f g (l1 ++ l2) == qsq f g l1 + qsq f g l2)%Q.
Proof. induction l1 as [|p l1 IH]; [change (qsq f g l2 == 0 + qsq f g l2)%Q; ring|]. change (qsq f g ((p :: l1) ++ l2)) with ((f p - g p) * (f p - g p) + qsq f g (l1 ++ l2))%Q. change (qsq f g (p :: l1)) with ((f p - g p) * (f p - g p) + qsq f g l1)%Q. rewrite IH. ring. Qed.
Lemma gcd_ok r c m1 m2 : 0 < r -> is_matrix r c m1 -> is_matrix r c m2 -> exists s, GCD m1 m2 = Ok s /\ (s == qsq (ent m1) (ent m2) (above r c))%Q.
Proof.
  intros Hr H1 H2. unfold GCD. rewrite decide_True by (by rewrite (shape_ok r c m1 H1 Hr), (shape_ok r c m2 H2 Hr)). rewrite (proj1 H1). unfold above.
  assert (forall i, i < r -> forall l acc, (forall j, j ∈ l -> j < c) -> exists s,
    rfold (fun acc j => let? x := entry m1 i j in let? y := entry m2 i j in Ok (acc + (x - y) * (x - y))%Q) acc l = Ok s /\
    (s == acc + qsq (ent m1) (ent m2) ((fun j => (i, j)) <$> l))%Q) as Hin.
  { intros i Hi. induction l as [|j l IH]; intros acc Hl; cbn [rfold]; [exists acc; split; [done|]; cbn; ring|].
    rewrite (entry_ok r c m1 i j H1 Hi), (entry_ok r c m2 i j H2 Hi) by (apply Hl; by left). cbn [rbind].
    destruct (IH (acc + (at_ m1 i j - at_ m2 i j) * (at_ m1 i j - at_ m2 i j))%Q) as (s & E & Es); [intros; apply Hl; by right|]. exists s. split; [done|]. rewrite Es.
    cbn [fmap list_fmap qsq foldr]. unfold ent at 3 4 5 6. cbn [fst snd]. fold (qsq (ent m1) (ent m2) ((fun j => (i, j)) <$> l)). ring. }
  assert (forall l acc, (forall i, i ∈ l -> i < r) -> exists s,
    rfold (fun acc i => rfold (fun acc j => let? x := entry m1 i j in let? y := entry m2 i j in Ok (acc + (x - y) * (x - y))%Q) acc
        (seq (i + 1) (length (default [] (m1 !! i)) - (i + 1)))) acc l = Ok s /\
    (s == acc + qsq (ent m1) (ent m2) (l ≫= (fun i => (fun j => (i, j)) <$> seq (i + 1) (c - (i + 1)))))%Q) as Hout.
  { induction l as [|i l IH]; intros acc Hl; cbn [rfold]; [exists acc; split; [done|]; cbn; ring|].
    rewrite (row_len r c m1 i H1) by (apply Hl; by left).
    destruct (Hin i ltac:(apply Hl; by left) (seq (i + 1) (c - (i + 1))) acc) as (s & E & Es); [intros j Hj%elem_of_seq; lia|]. rewrite E.
    destruct (IH s) as (s' & E' & Es'); [intros; apply Hl; by right|]. exists s'. split; [done|]. rewrite Es', Es. rewrite bind_cons, qsq_app. ring. }
  destruct (Hout (seq 0 r) 0%Q) as (s & E & Es); [intros i Hi%elem_of_seq; lia|]. exists s. split; [done|]. rewrite Es. ring.
Qed.
Lemma sq0 (x : Q) : (0 <= x * x)%Q.
Proof. destruct x as [n d]. unfold Qle, Qmult. cbn. nia. Qed.
Lemma qsq_nonneg f g l : (0 <= qsq f g l)%Q.
Proof. induction l as [|p l IH]; [cbn; lra|]. cbn [qsq foldr]. fold (qsq f g l). pose proof (sq0 (f p - g p)). lra. Qed.
Lemma qsq_sym f g l : (qsq f g l == qsq g f l)%Q.
Proof. induction l as [|p l IH]; [done|]. cbn [qsq foldr]. fold (qsq f g l) (qsq g f l). rewrite IH. ring. Qed.
Lemma qsq_zero f g l : (qsq f g l == 0)%Q <-> forall p, p ∈ l -> (f p == g p)%Q.
Proof.
  induction l as [|p l IH]; [split; [intros _ p Hp; by apply elem_of_nil in Hp|done]|]. cbn [qsq foldr]. fold (qsq f g l). pose proof (qsq_nonneg f g l) as Hn. pose proof (sq0 (f p - g p)) as Hs. split.
  - intros E x [->|Hx]%elem_of_cons.
    + assert ((f p - g p) * (f p - g p) == 0)%Q as E0 by lra. apply Qmult_integral in E0. destruct E0; lra.
    + apply IH; [lra|done].
  - intros Hp. assert (qsq f g l == 0)%Q as -> by (apply IH; intros; apply Hp; by right). rewrite (Hp p) by (by left). ring.
Qed.
(** Cauchy-Schwarz. *)
Lemma cauchy f g h l : let A := qsq f g l in let B := qsq g h l in let C := foldr (fun p q => (f p - g p) * (g p - h p) + q)%Q 0%Q l in
  (C * C <= A * B)%Q /\ (qsq f h l == A + 2 * C + B)%Q.
Proof.
  cbn zeta. induction l as [|p l [IH1 IH2]]; [split; [cbn; lra|cbn; ring]|]. cbn [qsq foldr]. fold (qsq f g l) (qsq g h l) (qsq f h l).
  set (C := foldr (fun p q => (f p - g p) * (g p - h p) + q)%Q 0%Q l) in *. pose proof (qsq_nonneg f g l) as HA. pose proof (qsq_nonneg g h l) as HB.
  revert IH1 IH2 HA HB. generalize (qsq f g l) (qsq g h l) (qsq f h l) C. intros A B D C' H1 H2 HA HB. set (a := (f p - g p)%Q). set (b := (g p - h p)%Q).
  assert (f p - h p == a + b)%Q as Eab by (unfold a, b; ring). split; [|rewrite Eab, H2; ring]. clearbody a b. clear Eab H2 D.
  pose proof (sq0 a) as Ha. pose proof (sq0 b) as Hb.
  assert (0 <= A * (b * b) - 2 * C' * (a * b) + B * (a * a))%Q as Hd.
  2:{ apply Qle_minus_iff. apply Qle_minus_iff in H1. setoid_replace ((a * a + A) * (b * b + B) + - ((a * b + C') * (a * b + C')))%Q
      with ((A * B + - (C' * C')) + (A * (b * b) - 2 * C' * (a * b) + B * (a * a)))%Q by ring. lra. }
  pose proof (Qmult_le_0_compat _ _ HB Ha) as HBa.
  destruct (Qlt_le_dec 0 A) as [HA'|HA'].
  - assert (0 <= A * (A * (b * b) - 2 * C' * (a * b) + B * (a * a)))%Q as Hm.
    { setoid_replace (A * (A * (b * b) - 2 * C' * (a * b) + B * (a * a)))%Q with ((A * b - C' * a) * (A * b - C' * a) + (A * B - C' * C') * (a * a))%Q by ring.
      pose proof (sq0 (A * b - C' * a)). assert (0 <= A * B - C' * C')%Q as H0 by lra. pose proof (Qmult_le_0_compat _ _ H0 Ha). lra. }
    apply (Qmult_le_l 0 _ A); [done|]. rewrite Qmult_0_r. done.
  - assert (A == 0)%Q as EA by lra. assert (C' == 0)%Q as EC. { rewrite EA in H1. pose proof (sq0 C'). assert (C' * C' == 0)%Q as E by lra. apply Qmult_integral in E. by destruct E. }
    rewrite EA, EC. lra.
Qed.
Lemma sq_le x y : (0 <= y)%Q -> (x * x <= y * y)%Q -> (x <= y)%Q.
Proof.
  intros Hy H. destruct (Qlt_le_dec y x) as [Hn|]; [|done]. exfalso. assert (y * y < x * x)%Q; [|lra].
  apply (Qle_lt_trans _ (y * x)); [rewrite (Qmult_comm y x); apply Qmult_le_compat_r; [lra|done]|]. apply Qmult_lt_r; [lra|done].
Qed.
Lemma triangle f g h l p q : at_least p (qsq f g l) -> at_least q (qsq g h l) -> at_least (p + q) (qsq f h l).
Proof.
  intros [Hp HA] [Hq HB]. destruct (cauchy f g h l) as [HC HD]. unfold at_least. rewrite HD. clear HD. pose proof (qsq_nonneg f g l) as HA0. pose proof (qsq_nonneg g h l) as HB0.
  revert HC HA HB HA0 HB0. generalize (qsq f g l) (qsq g h l) (foldr (fun p q => (f p - g p) * (g p - h p) + q)%Q 0%Q l). intros A B C HC HA HB HA0 HB0.
  split; [lra|].
  assert (C <= p * q)%Q as HCpq.
  - apply sq_le; [by apply Qmult_le_0_compat|]. apply (Qle_trans _ _ _ HC). apply (Qle_trans _ (p * p * B)); [by apply Qmult_le_compat_r|].
    setoid_replace (p * q * (p * q))%Q with (q * q * (p * p))%Q by ring. rewrite (Qmult_comm (p * p) B). apply Qmult_le_compat_r; [done|apply sq0].
  - setoid_replace ((p + q) * (p + q))%Q with (p * p + 2 * (p * q) + q * q)%Q by ring. lra.
Qed.

(** The square of the distance is the sum of the squared differences above the diagonal. *)
Theorem C94_sum r c m1 m2 : 0 < r -> is_matrix r c m1 -> is_matrix r c m2 ->
  exists s, GCD m1 m2 = Ok s /\ (s == foldr (fun p q => (ent m1 p - ent m2 p) * (ent m1 p - ent m2 p) + q) 0 (above r c))%Q.
Proof. apply gcd_ok. Qed.
Theorem C94_above r c i j : (i, j) ∈ above r c <-> i < r /\ i < j /\ j < c.
Proof.
  unfold above. rewrite elem_of_list_bind. split.
  - intros (k & (j' & [= -> ->] & Hj)%elem_of_list_fmap & Hk). apply elem_of_seq in Hj, Hk. lia.
  - intros (Hi & Hj & Hc). exists i. split; [|apply elem_of_seq; lia]. apply elem_of_list_fmap. exists j. split; [done|]. apply elem_of_seq. lia.
Qed.
(** It is a pseudometric on matrices of one shape: never negative, 0 iff the entries above the
    diagonal agree, symmetric, and the triangle inequality holds. *)
Theorem C94_metric r c m1 m2 m3 : 0 < r -> is_matrix r c m1 -> is_matrix r c m2 -> is_matrix r c m3 ->
  exists s12 s21 s23 s13, GCD m1 m2 = Ok s12 /\ GCD m2 m1 = Ok s21 /\ GCD m2 m3 = Ok s23 /\ GCD m1 m3 = Ok s13 /\
    (0 <= s12)%Q /\ (s12 == s21)%Q /\
    ((s12 == 0)%Q <-> forall i j, i < r -> i < j -> j < c -> (at_ m1 i j == at_ m2 i j)%Q) /\
    (forall p q, at_least p s12 -> at_least q s23 -> at_least (p + q) s13).
Proof.
  intros Hr H1 H2 H3. destruct (gcd_ok r c m1 m2 Hr H1 H2) as (s12 & E12 & S12). destruct (gcd_ok r c m2 m1 Hr H2 H1) as (s21 & E21 & S21).
  destruct (gcd_ok r c m2 m3 Hr H2 H3) as (s23 & E23 & S23). destruct (gcd_ok r c m1 m3 Hr H1 H3) as (s13 & E13 & S13).
  exists s12, s21, s23, s13. split_and!; try done.
  - rewrite S12. apply qsq_nonneg.
  - rewrite S12, S21. apply qsq_sym.
  - rewrite S12, qsq_zero. split.
    + intros H i j Hi Hij Hj. apply (H (i, j)). by apply C94_above.
    + intros H [i j] Hp. apply C94_above in Hp as (? & ? & ?). by apply H.
  - intros p q [Hp Hp'] [Hq Hq']. unfold at_least. rewrite S13. apply (triangle (ent m1) (ent m2) (ent m3)); (split; [done|]); by rewrite <- ?S12, <- ?S23.
Qed.
Theorem C94_shapes m1 m2 : shape m1 <> shape m2 -> GCD m1 m2 = Err AssertionError.
Proof. intros H. unfold GCD. by rewrite decide_False. Qed.
(** [GCD_matrix]: all distances; AssertionError when two shapes differ. *)
Theorem C94_matrix r c gcms : 0 < r -> (forall m, m ∈ gcms -> is_matrix r c m) ->
  exists d, GCD_matrix gcms = Ok d /\ length d = length gcms /\
    forall i mi, gcms !! i = Some mi -> exists row, d !! i = Some row /\ length row = length gcms /\
      forall j mj, gcms !! j = Some mj -> exists s, row !! j = Some s /\ GCD mi mj = Ok s.
Proof.
  intros Hr Hm. unfold GCD_matrix.
  assert (forall {A B} (f : A -> res B) (l : list A), (forall x, x ∈ l -> exists y, f x = Ok y) -> exists ys, rmapM f l = Ok ys /\ length ys = length l /\ forall i x, l !! i = Some x -> exists y, ys !! i = Some y /\ f x = Ok y) as Hall.
  { intros A B f l. induction l as [|x l IH]; intros Hl; [by exists []|]. destruct (Hl x) as [y Ey]; [by left|]. destruct IH as (ys & E & Hlen & Hys); [intros; apply Hl; by right|].
    cbn [rmapM]. rewrite Ey. cbn [rbind]. rewrite E. cbn [rbind]. exists (y :: ys). split; [done|]. split; [cbn; lia|]. intros [|i] x'; cbn; [intros [= <-]; by exists y|apply Hys]. }
  assert (forall mi, mi ∈ gcms -> exists row, rmapM (fun m2 => GCD mi m2) gcms = Ok row /\ length row = length gcms /\ forall j mj, gcms !! j = Some mj -> exists s, row !! j = Some s /\ GCD mi mj = Ok s) as Hrow.
  { intros mi Hi. apply Hall. intros mj Hj. destruct (gcd_ok r c mi mj Hr (Hm mi Hi) (Hm mj Hj)) as (s & E & _). by exists s. }
  destruct (Hall _ _ (fun m1 => rmapM (fun m2 => GCD m1 m2) gcms) gcms) as (d & E & Hl & Hd). { intros mi Hi. destruct (Hrow mi Hi) as (row & E & _). by exists row. }
  exists d. split; [done|]. split; [done|]. intros i mi Hi. destruct (Hd i mi Hi) as (row & Ei & Er). exists row. split; [done|].
  destruct (Hrow mi) as (row' & Er' & H1 & H2); [by eapply elem_of_list_lookup_2|]. assert (row' = row) as -> by congruence. done.
Qed.
(** Two arrays of different shapes in the list: AssertionError. *)
Theorem C94_matrix_shapes gcms m1 m2 : (forall m, m ∈ gcms -> exists r c, 0 < r /\ is_matrix r c m) -> m1 ∈ gcms -> m2 ∈ gcms -> shape m1 <> shape m2 ->
  GCD_matrix gcms = Err AssertionError.
Proof.
  intros Hm H1 H2 Hne. unfold GCD_matrix.
  assert (forall a b, a ∈ gcms -> b ∈ gcms -> (exists s, GCD a b = Ok s) \/ GCD a b = Err AssertionError) as Htot.
  { intros a b Ha Hb. destruct (decide (shape a = shape b)) as [E|E]; [|right; by apply C94_shapes]. left.
    destruct (Hm a Ha) as (r & c & Hr & Hma). destruct (Hm b Hb) as (r' & c' & Hr' & Hmb). rewrite (shape_ok r c a), (shape_ok r' c' b) in E by done. injection E as <- <-.
    destruct (gcd_ok r c a b Hr Hma Hmb) as (s & Es & _). by exists s. }
  assert (forall {A B} (f : A -> res B) (l : list A), (forall x, x ∈ l -> (exists y, f x = Ok y) \/ f x = Err AssertionError) -> (exists ys, rmapM f l = Ok ys) \/ rmapM f l = Err AssertionError) as Hor.
  { intros A B f l. induction l as [|x l IH]; intros Hl; [left; by exists []|]. cbn [rmapM]. destruct (Hl x) as [[y ->]| ->]; [by left| |by right]. cbn [rbind].
    destruct IH as [[ys ->]| ->]; [intros; apply Hl; by right|left; cbn; eauto|by right]. }
  assert (forall {A B} (f : A -> res B) (l : list A) x, (forall x, x ∈ l -> (exists y, f x = Ok y) \/ f x = Err AssertionError) -> x ∈ l -> f x = Err AssertionError -> rmapM f l = Err AssertionError) as Herr.
  { intros A B f l x. induction l as [|y l IH]; intros Hl Hx Ef; [by apply elem_of_nil in Hx|]. cbn [rmapM]. destruct (Hl y) as [[z Ez]|Ez]; [by left| |by rewrite Ez]. rewrite Ez. cbn [rbind].
    apply elem_of_cons in Hx as [->|Hx]; [congruence|]. rewrite IH; [done|intros; apply Hl; by right|done|done]. }
  apply (Herr _ _ _ _ m1); [|done|].
  - intros a Ha. apply Hor. intros b Hb. by apply Htot.
  - apply (Herr _ _ _ _ m2); [|done|by apply C94_shapes]. intros b Hb. by apply Htot.
Qed.
Example C94_example : let m1 := [[1; 1 # 2; 0]; [1 # 2; 1; 0]; [0; 0; 1]]%Q in let m2 := [[1; 0; 0]; [0; 1; 1]; [0; 1; 1]]%Q in
  is_matrix 3 3 m1 /\ is_matrix 3 3 m2 /\ (match GCD m1 m2 with Ok s => Qred s | Err _ => 0 end == 5 # 4)%Q /\ GCD m1 [[1%Q]] = Err AssertionError /\ GCD_matrix [m1; [[1%Q]]] = Err AssertionError.
Proof.
  cbn zeta. split; [split; [done|]|split; [split; [done|]|split_and!; by vm_compute]];
    intros row H; repeat (apply elem_of_cons in H as [->|H]; [done|]); by apply elem_of_nil in H.
Qed.
Print Assumptions C94_sum.
Print Assumptions C94_above.
Print Assumptions C94_metric.
Print Assumptions C94_shapes.
Print Assumptions C94_matrix.
Print Assumptions C94_matrix_shapes.
