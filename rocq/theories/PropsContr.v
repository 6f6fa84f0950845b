(** * C64: the contraction clustering coefficients *)
From Verif Require Import CcMore CcSpec PropsNet PropsMpx MpxIter NetIter NetEdges CcFacts CcGen.
From Verif Require Import PropsCc PropsBat.
Open Scope Z_scope.

(** ** Specification *)
(** [net[a,b,g,d]] returns [W (a,g) (b,d)] for all nodes [N] and layers [L]. *)
Definition reads_all (get : name -> name -> name -> name -> res Z) (N L : list name) (W : name * name -> name * name -> Z) : Prop :=
  forall a b g d, a ∈ N -> b ∈ N -> g ∈ L -> d ∈ L -> get a b g d = Ok (W (a, g) (b, d)).
(** Closed walks of three steps, and walks of two steps between distinct ends. *)
Definition closed3 {A} (W : A -> A -> Z) (V : list A) : Z := zsumf (fun x => zsumf (fun y => zsumf (fun z => W x y * W y z * W z x) V) V) V.
Definition open2 {A} `{EqDecision A} (W : A -> A -> Z) (V : list A) : Z :=
  zsumf (fun x => zsumf (fun y => zsumf (fun z => if decide (x = z) then 0 else W x y * W y z) V) V) V.
(** The weights between two nodes, summed over the layers. *)
Definition layer_sum (W : name * name -> name * name -> Z) (L : list name) (a b : name) : Z := zsumf (fun g => W (a, g) (b, g)) L.
Definition is_ratio (r : res (option Q)) (num den : Z) : Prop :=
  (den = 0 -> r = Ok None) /\ (den <> 0 -> exists q, r = Ok (Some q) /\ (q == inject_Z num / inject_Z den)%Q).

(** ** Facts *)
Lemma zdiv_nz a b : b <> 0 -> zdiv a b = Ok (inject_Z a / inject_Z b)%Q.
Proof.
  intros Hb. unfold zdiv, fdiv. destruct (Qeq_bool _ _) eqn:E; [|done]. apply Qeq_bool_iff in E. unfold Qeq in E. simpl in E. lia.
Qed.
Lemma contraction_eq a b num den : a = Ok num -> b = Ok den -> is_ratio (contraction a b) num den.
Proof.
  intros -> ->. unfold contraction. cbn [rbind]. split; intros Hd; [by rewrite decide_True|]. rewrite decide_False by done. rewrite zdiv_nz by done. eexists. by split.
Qed.
Section Loops.
  Context (N L : list name) (HN : NoDup N) (HL : NoDup L).
  Let V := prodl N L.
  Lemma loop6_V (f : name -> name -> name -> name -> name -> name -> res Z) (F : name * name -> name * name -> name * name -> Z) :
    (forall a b e g d n, a ∈ N -> b ∈ N -> e ∈ N -> g ∈ L -> d ∈ L -> n ∈ L -> f a b e g d n = Ok (F (a, g) (b, d) (e, n))) ->
    loop6 N L f = Ok (zsumf (fun x => zsumf (fun y => zsumf (F x y) V) V) V).
  Proof.
    intros Hf. unfold loop6.
    rewrite (rsum_ok _ (fun a => zsumf (fun b => zsumf (fun e => zsumf (fun g => zsumf (fun d => zsumf (fun n => F (a, g) (b, d) (e, n)) L) L) L) N) N)).
    2:{ intros a Ha. apply rsum_ok. intros b Hb. apply rsum_ok. intros e He. apply rsum_ok. intros g Hg. apply rsum_ok. intros d Hd. apply rsum_ok. intros n Hn. by apply Hf. }
    f_equal. unfold V at 3. rewrite zsumf_prodl. apply zsumf_ext. intros a _.
    rewrite (zsumf_ext (fun y => zsumf (fun y0 => zsumf (F (a, y) y0) V) V) (fun g => zsumf (fun b => zsumf (fun d => zsumf (F (a, g) (b, d)) V) L) N)) by (intros g _; unfold V at 2; by rewrite zsumf_prodl).
    rewrite (zsumf_swap (fun g b => zsumf (fun d => zsumf (F (a, g) (b, d)) V) L) L N). apply zsumf_ext. intros b _.
    rewrite (zsumf_swap (fun e g => zsumf (fun d => zsumf (fun n => F (a, g) (b, d) (e, n)) L) L) N L). apply zsumf_ext. intros g _.
    rewrite (zsumf_swap (fun e d => zsumf (fun n => F (a, g) (b, d) (e, n)) L) N L). apply zsumf_ext. intros d _. unfold V. by rewrite zsumf_prodl.
  Qed.
  Lemma loop4_V (f : name -> name -> name -> name -> res Z) (F : name * name -> name * name -> Z) :
    (forall a b g d, a ∈ N -> b ∈ N -> g ∈ L -> d ∈ L -> f a b g d = Ok (F (a, g) (b, d))) ->
    loop4 N L f = Ok (zsumf (fun x => zsumf (F x) V) V).
  Proof.
    intros Hf. unfold loop4. rewrite (rsum_ok _ (fun a => zsumf (fun b => zsumf (fun g => zsumf (fun d => F (a, g) (b, d)) L) L) N)).
    2:{ intros a Ha. apply rsum_ok. intros b Hb. apply rsum_ok. intros g Hg. apply rsum_ok. intros d Hd. by apply Hf. }
    f_equal. unfold V at 2. rewrite zsumf_prodl. apply zsumf_ext. intros a _. rewrite zsumf_swap. apply zsumf_ext. intros g _. unfold V. by rewrite zsumf_prodl.
  Qed.
  Lemma NoDup_V : NoDup V.
  Proof. by apply NoDup_prodl. Qed.
  (** Over nodes, the layer sums being products. *)
  Lemma loop6_N (f : name -> name -> name -> name -> name -> name -> res Z) (G : name -> name -> name -> Z) (F : name -> name -> name -> name -> name -> name -> Z) :
    (forall a b e g d n, a ∈ N -> b ∈ N -> e ∈ N -> g ∈ L -> d ∈ L -> n ∈ L -> f a b e g d n = Ok (F a b e g d n)) ->
    (forall a b e, a ∈ N -> b ∈ N -> e ∈ N -> zsumf (fun g => zsumf (fun d => zsumf (fun n => F a b e g d n) L) L) L = G a b e) ->
    loop6 N L f = Ok (zsumf (fun a => zsumf (fun b => zsumf (G a b) N) N) N).
  Proof.
    intros Hf HG. unfold loop6. apply rsum_ok. intros a Ha. apply rsum_ok. intros b Hb. apply rsum_ok. intros e He. rewrite <- HG by done.
    apply rsum_ok. intros g Hg. apply rsum_ok. intros d Hd. apply rsum_ok. intros n Hn. by apply Hf.
  Qed.
  Lemma loop4_N (f : name -> name -> name -> name -> res Z) (G : name -> name -> Z) (F : name -> name -> name -> name -> Z) :
    (forall a b g d, a ∈ N -> b ∈ N -> g ∈ L -> d ∈ L -> f a b g d = Ok (F a b g d)) ->
    (forall a b, a ∈ N -> b ∈ N -> zsumf (fun g => zsumf (fun d => F a b g d) L) L = G a b) ->
    loop4 N L f = Ok (zsumf (fun a => zsumf (G a) N) N).
  Proof.
    intros Hf HG. unfold loop4. apply rsum_ok. intros a Ha. apply rsum_ok. intros b Hb. rewrite <- HG by done.
    apply rsum_ok. intros g Hg. apply rsum_ok. intros d Hd. by apply Hf.
  Qed.
End Loops.
Lemma open2_sub {A} `{EqDecision A} (W : A -> A -> Z) V : NoDup V ->
  open2 W V = zsumf (fun x => zsumf (fun y => zsumf (fun z => W x y * W y z) V) V) V + zsumf (fun x => zsumf (fun y => - W x y * W y x) V) V.
Proof.
  intros HV. unfold open2. rewrite <- zsumf_add. apply zsumf_ext. intros x Hx. rewrite <- zsumf_add. apply zsumf_ext. intros y _.
  rewrite (zsumf_ext _ (fun z => ind (z <> x) * (W x y * W y z))).
  - rewrite (zsumf_skip (fun z => W x y * W y z)) by done. rewrite decide_True by done. lia.
  - intros z _. unfold ind. destruct (decide (x = z)) as [->|Hne]; [rewrite decide_False by auto; lia|]. rewrite decide_True by congruence. lia.
Qed.
Lemma open2_rot {A} `{EqDecision A} (W : A -> A -> Z) V :
  open2 W V = zsumf (fun x => zsumf (fun y => zsumf (fun z => if decide (y = z) then 0 else W x y * W z x) V) V) V.
Proof.
  unfold open2. rewrite zsumf_swap. apply zsumf_ext. intros y _. rewrite zsumf_swap. apply zsumf_ext. intros z _. apply zsumf_ext. intros x _.
  destruct (decide (x = z)) as [->|Hne]; [by rewrite decide_True|]. rewrite decide_False by congruence. lia.
Qed.
Lemma bounds3 {A} `{EqDecision A} (W : A -> A -> Z) V b : (forall x y, x ∈ V -> y ∈ V -> 0 <= W x y <= b) -> (forall x, x ∈ V -> W x x = 0) ->
  0 <= closed3 W V <= b * open2 W V.
Proof.
  intros H H0. unfold closed3, open2. split.
  - apply zsumf_nonneg. intros x Hx. apply zsumf_nonneg. intros y Hy. apply zsumf_nonneg. intros z Hz. pose proof (H x y Hx Hy). pose proof (H y z Hy Hz). pose proof (H z x Hz Hx). 
    apply Z.mul_nonneg_nonneg; [|lia]. apply Z.mul_nonneg_nonneg; lia.
  - rewrite <- zsumf_mul_l. apply zsumf_le. intros x Hx. rewrite <- zsumf_mul_l. apply zsumf_le. intros y Hy. rewrite <- zsumf_mul_l. apply zsumf_le. intros z Hz.
    pose proof (H x y Hx Hy). pose proof (H y z Hy Hz). pose proof (H z x Hz Hx). destruct (decide (x = z)) as [->|Hne]; [rewrite (H0 z) by done; lia|].
    rewrite (Z.mul_comm b). apply Z.mul_le_mono_nonneg_l; [|lia]. apply Z.mul_nonneg_nonneg; lia.
Qed.
Lemma open2_perm {A} `{EqDecision A} (W : A -> A -> Z) V V' : Permutation V V' -> open2 W V = open2 W V'.
Proof.
  intros HP. unfold open2. rewrite (zsumf_perm _ _ _ HP). apply zsumf_ext. intros x _. rewrite (zsumf_perm _ _ _ HP). apply zsumf_ext. intros y _. by rewrite (zsumf_perm _ _ _ HP).
Qed.
Lemma closed3_perm {A} (W : A -> A -> Z) V V' : Permutation V V' -> closed3 W V = closed3 W V'.
Proof.
  intros HP. unfold closed3. rewrite (zsumf_perm _ _ _ HP). apply zsumf_ext. intros x _. rewrite (zsumf_perm _ _ _ HP). apply zsumf_ext. intros y _. by rewrite (zsumf_perm _ _ _ HP).
Qed.
Lemma ratio_eq r s num den : is_ratio r num den -> is_ratio s num den -> (r = Ok None /\ s = Ok None) \/ exists q q', r = Ok (Some q) /\ s = Ok (Some q') /\ (q == q')%Q.
Proof.
  intros [H1 H2] [H3 H4]. destruct (decide (den = 0)) as [E|E]; [left; split; auto|right]. destruct (H2 E) as (q & -> & Hq), (H4 E) as (q' & -> & Hq'). exists q, q'. split_and!; [done|done|]. by transitivity (inject_Z num / inject_Z den)%Q.
Qed.
Lemma ratio_unit r num den : is_ratio r num den -> 0 <= num <= den -> forall q, r = Ok (Some q) -> (0 <= q <= 1)%Q.
Proof.
  intros [H1 H2] Hb q Hq. destruct (decide (den = 0)) as [E|E]; [by rewrite (H1 E) in Hq|]. destruct (H2 E) as (q' & Hq' & He). rewrite Hq in Hq'. injection Hq' as ->.
  rewrite He. apply Qdiv_unit; lia.
Qed.

(** ** The theorems, for any network with one aspect whose weights can be read *)
Section Any.
  Context (get : name -> name -> name -> name -> res Z) (N L : list name) (W : name * name -> name * name -> Z)
    (HN : NoDup N) (HL : NoDup L) (HW : reads_all get N L W).
  Let V := prodl N L.
  Let A := layer_sum W L.
  Let nL := Z.of_nat (length L).
  Lemma num_m_eq : num_m get N L = Ok (closed3 W V).
  Proof. apply loop6_V. intros. unfold mul2. by rewrite !HW. Qed.
  Lemma zsum_prod3 (u v w : name -> Z) : zsumf (fun g => zsumf (fun d => zsumf (fun n => u g * v d * w n) L) L) L = zsumf u L * zsumf v L * zsumf w L.
  Proof.
    rewrite (zsumf_ext _ (fun g => u g * (zsumf v L * zsumf w L))).
    - rewrite zsumf_mul_r. lia.
    - intros g _. rewrite (zsumf_ext _ (fun d => v d * (u g * zsumf w L))); [rewrite zsumf_mul_r; lia|]. intros d _. rewrite zsumf_mul_l. lia.
  Qed.
  Lemma zsum_prod2 (u v : name -> Z) : zsumf (fun g => zsumf (fun d => u g * v d) L) L = zsumf u L * zsumf v L.
  Proof. rewrite (zsumf_ext _ (fun g => u g * zsumf v L)); [by rewrite zsumf_mul_r|]. intros g _. by rewrite zsumf_mul_l. Qed.
  Lemma num_o_eq : num_o get N L = Ok (closed3 A N).
  Proof.
    apply (loop6_N N L _ (fun a b e => A a b * A b e * A e a) (fun a b e g d n => W (a, g) (b, g) * W (b, d) (e, d) * W (e, n) (a, n))).
    - intros. unfold mul2. by rewrite !HW.
    - intros a b e _ _ _. apply zsum_prod3.
  Qed.
  Lemma m_ratio : is_ratio (gcc_contraction_m get N L) (closed3 W V) (open2 W V).
  Proof.
    apply contraction_eq; [apply num_m_eq|]. rewrite (loop6_V N L _ (fun x y z => W x y * W y z)) by (intros; unfold mul2; by rewrite !HW). cbn [rbind].
    rewrite (loop4_V N L _ (fun x y => - W x y * W y x)) by (intros; by rewrite !HW). cbn [rbind]. f_equal. symmetry. apply open2_sub. by apply NoDup_V.
  Qed.
  Lemma m_ct_ratio : is_ratio (gcc_contraction_m_ct get N L) (closed3 W V) (open2 W V).
  Proof.
    apply contraction_eq; [apply num_m_eq|]. unfold open2. apply loop6_V. intros a b e g d n Ha Hb He Hg Hd Hn. unfold mul2. rewrite !HW by done. cbn [rbind].
    destruct (decide (e = a /\ n = g)) as [[-> ->]|Hne]; [rewrite decide_True by done; f_equal; lia|]. rewrite decide_False by (intros [= -> ->]; by apply Hne). done.
  Qed.
  Lemma m_full_ratio : is_ratio (gcc_contraction_m_full get N L) (closed3 W V) (open2 W V).
  Proof.
    apply contraction_eq; [apply num_m_eq|]. rewrite open2_rot. apply loop6_V. intros a b e g d n Ha Hb He Hg Hd Hn. unfold mul2. rewrite !HW by done. cbn [rbind].
    destruct (decide (b <> e \/ d <> n)) as [Hne|Hne].
    - rewrite decide_False by (intros [= -> ->]; by destruct Hne). done.
    - rewrite decide_True; [done|]. destruct (decide (b = e)) as [->|], (decide (d = n)) as [->|]; done || (exfalso; apply Hne; auto).
  Qed.
  Lemma o2_ratio : is_ratio (gcc_contraction_o2 get N L) (closed3 A N) (nL * open2 A N).
  Proof.
    apply contraction_eq; [apply num_o_eq|]. unfold open2. rewrite <- zsumf_mul_l. rewrite (zsumf_ext _ (fun a => zsumf (fun b => zsumf (fun e => nL * if decide (a = e) then 0 else A a b * A b e) N) N)).
    2:{ intros a _. rewrite <- zsumf_mul_l. apply zsumf_ext. intros b _. by rewrite zsumf_mul_l. }
    apply (loop6_N N L _ _ (fun a b e g d n => W (a, g) (b, g) * W (b, d) (e, d) * (if decide (a = e) then 0 else 1))).
    - intros a b e g d n Ha Hb He Hg Hd Hn. unfold mul2. rewrite !HW by done. cbn [rbind]. destruct (decide (e = a)) as [->|Hne]; [rewrite decide_True by done; f_equal; lia|].
      rewrite decide_False by congruence. f_equal. lia.
    - intros a b e _ _ _. rewrite (zsum_prod3 (fun g => W (a, g) (b, g)) (fun d => W (b, d) (e, d)) (fun _ => if decide (a = e) then 0 else 1)). rewrite zsumf_const. fold nL.
      change (zsumf (fun g => W (a, g) (b, g)) L) with (A a b). change (zsumf (fun d => W (b, d) (e, d)) L) with (A b e). destruct (decide (a = e)); lia.
  Qed.
  Lemma o_full_ratio : is_ratio (gcc_contraction_o_full get N L) (closed3 A N) (nL * open2 A N).
  Proof.
    apply contraction_eq; [apply num_o_eq|]. rewrite open2_rot. rewrite <- zsumf_mul_l. rewrite (zsumf_ext _ (fun a => zsumf (fun b => zsumf (fun e => nL * if decide (b = e) then 0 else A a b * A e a) N) N)).
    2:{ intros a _. rewrite <- zsumf_mul_l. apply zsumf_ext. intros b _. by rewrite zsumf_mul_l. }
    apply (loop6_N N L _ _ (fun a b e g d n => W (a, g) (b, g) * (if decide (b = e) then 0 else 1) * W (e, n) (a, n))).
    - intros a b e g d n Ha Hb He Hg Hd Hn. unfold mul2. rewrite !HW by done. cbn [rbind]. destruct (decide (b <> e)) as [Hne|Hne]; [rewrite decide_False by done; f_equal; lia|].
      rewrite decide_True; [f_equal; lia|]. destruct (decide (b = e)); [done|]. exfalso. by apply Hne.
    - intros a b e _ _ _. rewrite (zsum_prod3 (fun g => W (a, g) (b, g)) (fun _ => if decide (b = e) then 0 else 1) (fun n => W (e, n) (a, n))). rewrite zsumf_const. fold nL.
      change (zsumf (fun g => W (a, g) (b, g)) L) with (A a b). change (zsumf (fun d => W (e, d) (a, d)) L) with (A e a). destruct (decide (b = e)); lia.
  Qed.
  (** [gcc_contraction_o] subtracts the returning walks once instead of once per layer. *)
  Lemma o_ratio : is_ratio (gcc_contraction_o get N L) (closed3 A N) (nL * open2 A N + (nL - 1) * zsumf (fun a => zsumf (fun b => A a b * A b a) N) N).
  Proof.
    apply contraction_eq; [apply num_o_eq|].
    rewrite (loop6_N N L _ (fun a b e => nL * (A a b * A b e)) (fun a b e g d n => W (a, g) (b, g) * W (b, d) (e, d) * 1)).
    2:{ intros. unfold mul2. rewrite !HW by done. cbn [rbind]. f_equal. lia. }
    2:{ intros a b e _ _ _. rewrite (zsum_prod3 (fun g => W (a, g) (b, g)) (fun d => W (b, d) (e, d)) (fun _ => 1)). rewrite zsumf_const. fold nL.
        change (zsumf (fun g => W (a, g) (b, g)) L) with (A a b). change (zsumf (fun d => W (b, d) (e, d)) L) with (A b e). lia. }
    cbn [rbind]. rewrite (loop4_N N L _ (fun a b => - A a b * A b a) (fun a b g d => - W (a, g) (b, g) * W (b, d) (a, d))).
    2:{ intros. by rewrite !HW. }
    2:{ intros a b _ _. rewrite (zsum_prod2 (fun g => - W (a, g) (b, g)) (fun d => W (b, d) (a, d))). 
        rewrite (zsumf_ext (fun g => - W (a, g) (b, g)) (fun g => -1 * W (a, g) (b, g))) by (intros; lia). rewrite zsumf_mul_l.
        change (zsumf (fun g => W (a, g) (b, g)) L) with (A a b). change (zsumf (fun d => W (b, d) (a, d)) L) with (A b a). lia. }
    cbn [rbind]. f_equal. rewrite (open2_sub A N HN).
    assert (forall f : name -> name -> Z, zsumf (fun a => zsumf (fun b => - f a b * f b a) N) N = - zsumf (fun a => zsumf (fun b => f a b * f b a) N) N) as Hneg.
    { intros f. rewrite <- (Z.mul_1_l (zsumf (fun a => zsumf (fun b => f a b * f b a) N) N)), Z.mul_comm, Zopp_mult_distr_r, <- zsumf_mul_r. apply zsumf_ext. intros a _. rewrite <- zsumf_mul_r. apply zsumf_ext. intros b _. lia. }
    rewrite (Hneg A).
    assert (zsumf (fun a => zsumf (fun b => zsumf (fun e => nL * (A a b * A b e)) N) N) N = nL * zsumf (fun a => zsumf (fun b => zsumf (fun e => A a b * A b e) N) N) N) as ->; [|lia].
    rewrite <- zsumf_mul_l. apply zsumf_ext. intros a _. rewrite <- zsumf_mul_l. apply zsumf_ext. intros b _. by rewrite zsumf_mul_l.
  Qed.
End Any.

(** ** C64 *)
(** The six functions, on nodes [N], layers [L] and node-layer tuples [V] listed in any order. *)
Definition contractions (get : name -> name -> name -> name -> res Z) (N L : list name) (V : list (name * name)) (W : name * name -> name * name -> Z) : Prop :=
  let A := layer_sum W L in let n := Z.of_nat (length L) in
  is_ratio (gcc_contraction_m get N L) (closed3 W V) (open2 W V) /\
  is_ratio (gcc_contraction_m_ct get N L) (closed3 W V) (open2 W V) /\
  is_ratio (gcc_contraction_m_full get N L) (closed3 W V) (open2 W V) /\
  is_ratio (gcc_contraction_o_full get N L) (closed3 A N) (n * open2 A N) /\
  is_ratio (gcc_contraction_o2 get N L) (closed3 A N) (n * open2 A N) /\
  is_ratio (gcc_contraction_o get N L) (closed3 A N) (n * open2 A N + (n - 1) * zsumf (fun a => zsumf (fun b => A a b * A b a) N) N).
Lemma contractions_get get N L V W : NoDup N -> NoDup L -> lists_exactly V (fun x => x.1 ∈ N /\ x.2 ∈ L) -> reads_all get N L W -> contractions get N L V W.
Proof.
  intros HN HL [HV HE] HW. assert (Permutation V (prodl N L)) as HP.
  { apply NoDup_Permutation; [done|by apply NoDup_prodl|]. intros [a g]. rewrite HE, elem_of_prodl. done. }
  unfold contractions. cbv zeta. rewrite (closed3_perm W _ _ HP), (open2_perm W _ _ HP).
  split_and!; [by apply m_ratio|by apply m_ct_ratio|by apply m_full_ratio|by apply o_full_ratio|by apply o2_ratio|by apply o_ratio].
Qed.

(** Every weight can be read from a plain network, and from a multiplex network with one
    categorical coupling. *)
Lemma plain_reads_all n W N L : aspects n = 1%nat -> (forall a b g d, a ∈ N -> b ∈ N -> g ∈ L -> d ∈ L -> reads n [a; g] [b; d] (W (a, g) (b, d))) ->
  reads_all (nget4 n) N L W.
Proof.
  intros Ha Hr a b g d H1 H2 H3 H4. specialize (Hr a b g d H1 H2 H3 H4). apply reads_rd in Hr; [|by rewrite Ha..]. unfold nget4.
  change [INm a; INm b; INm g; INm d] with (INm <$> [a; b; g; d]). rewrite (getitem_names n [a; b; g; d] [a; g] [b; d]); [cbn [rbind]; by rewrite Hr|].
  rewrite Ha. exact (names_link_full 1 [a; g] [b; d] eq_refl eq_refl).
Qed.
Lemma mpx_reads_all p W N L : maspects p = 1%nat -> (forall a b g d, a ∈ N -> b ∈ N -> g ∈ L -> d ∈ L -> mreads p [a; g] [b; d] (W (a, g) (b, d))) ->
  reads_all (mget4 p) N L W.
Proof.
  intros Ha Hr a b g d H1 H2 H3 H4. specialize (Hr a b g d H1 H2 H3 H4). apply mreads_pair in Hr; [|by rewrite Ha..]. unfold mget4.
  rewrite (pgetitem_pair p _ [a; g] [b; d]); [done|]. rewrite Ha. exact (names_link_full 1 [a; g] [b; d] eq_refl eq_refl).
Qed.
Lemma cat_reads w dir noe fi h p a b g d : mhist [CCat w] dir noe fi h p -> mhas p 1 g -> mhas p 1 d -> exists v, mreads p [a; g] [b; d] v.
Proof.
  intros Hh Hg Hd. pose proof (mhist_inv _ _ _ _ _ _ Hh) as Hi. pose proof (pinv_asp _ _ _ _ _ _ Hi) as Has. cbn in Has. pose proof (pi_wf _ _ _ _ _ _ Hi) as Hp.
  assert (forall l, mhas p 1 l -> exists m, pA p (LBare l) = Some m) as Hv.
  { intros l (s & Hs & Hl). apply lay_pA; [done| |]; simpl; [split; [done|]|by rewrite Has]. unfold mget_layers in Hs. destruct (mslices p !! 1%nat) as [s'|] eqn:E; [|done].
    injection Hs as ->. exists s. by split. }
  assert (forall x y, (exists v, pget_pair p x y = Ok v) -> length x = S (maspects p) -> length y = S (maspects p) -> exists v, mreads p x y v) as Hx.
  { intros x y [v Hv'] Hx Hy. exists v. by apply mreads_pair. }
  apply Hx; [|by rewrite Has..]. destruct (decide (g = d)) as [<-|Hgd].
  - destruct (decide (a = b)) as [<-|Hab].
    + exists (mnoe p). apply pget_pair_none; [done|]. intros k (_ & Hk & Hk'). by apply (proj1 (Hk' k)).
    + rewrite pget_pair_intra by by apply differ_at_0. destruct (pA _ _); eauto.
  - destruct (decide (a = b)) as [<-|Hab].
    + rewrite (pget_pair_coup p 0) by (apply differ_at_S; split; [done|]; by apply differ_at_0). destruct (lin _ _); [|eauto].
      rewrite Has. change (lkey 1 (tail [a; g])) with (LBare g). change (lkey 1 (tail [a; d])) with (LBare d). destruct (Hv g Hg) as [m1 ->], (Hv d Hd) as [m2 ->].
      assert (exists v, cread p 1 [a; g] [a; d] = Ok v) as Hc by (unfold cread; cbn [Nat.sub]; rewrite (pi_coup _ _ _ _ _ _ Hi); simpl; eauto).
      destruct (mfic p); cbn [rbind]; [exact Hc|]. destruct (lin _ (net_nodes m1)); cbn [rbind]; [|eauto]. destruct (lin _ (net_nodes m2)); [exact Hc|eauto].
    + exists (mnoe p). apply pget_pair_none; [done|]. intros [|k] (_ & Hk & Hk'); [apply Hgd; assert (Some g = Some d) as [=] by (apply (Hk' 1%nat); lia); done|].
      apply Hab. assert (Some a = Some b) as [=] by (apply (Hk' 0%nat); lia). done.
Qed.

(** [W] gives the weight between any two node-layer tuples over [N] and [L]. *)
Theorem C64_multiplex cs dir noe fi h p N L V W : mhist cs dir noe fi h p -> length cs = 1%nat ->
  lists_exactly N (mhas p 0) -> lists_exactly L (mhas p 1) -> lists_exactly V (fun x => mhas p 0 x.1 /\ mhas p 1 x.2) ->
  (forall a b g d, a ∈ N -> b ∈ N -> g ∈ L -> d ∈ L -> mreads p [a; g] [b; d] (W (a, g) (b, d))) ->
  contractions (mget4 p) N L V W.
Proof.
  intros Hh Hcs [HN EN] [HL EL] HV HW. apply contractions_get; [done|done| |].
  - eapply lists_exactly_iff; [|exact HV]. intros [a g]. simpl. by rewrite EN, EL.
  - apply mpx_reads_all; [|done]. rewrite (pinv_asp _ _ _ _ _ _ (mhist_inv _ _ _ _ _ _ Hh)). done.
Qed.
Theorem C64_categorical_reads w dir noe fi h p : mhist [CCat w] dir noe fi h p ->
  exists W, forall a b g d, mhas p 1 g -> mhas p 1 d -> mreads p [a; g] [b; d] (W (a, g) (b, d)).
Proof.
  intros Hh. exists (fun x y => match pget_pair p [x.1; x.2] [y.1; y.2] with Ok v => v | Err _ => 0 end). intros a b g d Hg Hd.
  destruct (cat_reads _ _ _ _ _ _ a b g d Hh Hg Hd) as [v Hv]. pose proof Hv as Hv'. destruct (mreads_len _ _ _ _ Hv') as [H1 H2]. apply mreads_pair in Hv'; [|done..].
  simpl. by rewrite Hv'.
Qed.
Theorem C64_plain noe dir fi h n N L V : hist 1 noe dir fi h n ->
  lists_exactly N (has_elem n 0) -> lists_exactly L (has_elem n 1) -> lists_exactly V (fun x => has_elem n 0 x.1 /\ has_elem n 1 x.2) ->
  exists W, (forall x y, reads n [x.1; x.2] [y.1; y.2] (W x y)) /\ contractions (nget4 n) N L V W.
Proof.
  intros Hh [HN EN] [HL EL] HV. destruct (hist_inv _ _ _ _ _ _ Hh) as [_ _ Ha _ _ _].
  exists (fun x y => rd n [x.1; x.2] [y.1; y.2]). assert (forall x y : name * name, reads n [x.1; x.2] [y.1; y.2] (rd n [x.1; x.2] [y.1; y.2])) as Hr.
  { intros x y. apply reads_rd; [by rewrite Ha..|done]. }
  split; [done|]. apply contractions_get; [done|done| |].
  - eapply lists_exactly_iff; [|exact HV]. intros [a g]. simpl. by rewrite EN, EL.
  - apply plain_reads_all; [done|]. intros a b g d _ _ _ _. exact (Hr (a, g) (b, d)).
Qed.
(** The three m variants always agree, and so do o2 and o_full. *)
Definition same_value (r s : res (option Q)) : Prop := (r = Ok None /\ s = Ok None) \/ exists q q', r = Ok (Some q) /\ s = Ok (Some q') /\ (q == q')%Q.
Theorem C64_variants_agree get N L V W : contractions get N L V W ->
  same_value (gcc_contraction_m get N L) (gcc_contraction_m_ct get N L) /\
  same_value (gcc_contraction_m get N L) (gcc_contraction_m_full get N L) /\
  same_value (gcc_contraction_o2 get N L) (gcc_contraction_o_full get N L) /\
  (length L = 1%nat -> same_value (gcc_contraction_o2 get N L) (gcc_contraction_o get N L)).
Proof.
  intros (H1 & H2 & H3 & H4 & H5 & H6). split_and!; [by eapply ratio_eq..|]. intros HL. rewrite HL in H5, H6. eapply ratio_eq; [exact H5|].
  by replace (Z.of_nat 1 * open2 (layer_sum W L) N) with (Z.of_nat 1 * open2 (layer_sum W L) N + (Z.of_nat 1 - 1) * zsumf (fun a => zsumf (fun b => layer_sum W L a b * layer_sum W L b a) N) N) by lia.
Qed.
(** With weights 0 and 1 and no links from a tuple to itself, every defined value is in [0,1],
    and [gcc_contraction_o] is at most [gcc_contraction_o2]. *)
Theorem C64_bounds get N L V W : contractions get N L V W -> lists_exactly V (fun x => x.1 ∈ N /\ x.2 ∈ L) ->
  (forall x y, x ∈ V -> y ∈ V -> W x y = 0 \/ W x y = 1) -> (forall x, x ∈ V -> W x x = 0) ->
  (forall f, f ∈ [gcc_contraction_m; gcc_contraction_m_ct; gcc_contraction_m_full; gcc_contraction_o_full; gcc_contraction_o2; gcc_contraction_o] ->
     forall q, f get N L = Ok (Some q) -> (0 <= q <= 1)%Q) /\
  (forall q q', gcc_contraction_o get N L = Ok (Some q) -> gcc_contraction_o2 get N L = Ok (Some q') -> (q <= q')%Q).
Proof.
  intros (H1 & H2 & H3 & H4 & H5 & H6) [HV EV] H01 H0. set (A := layer_sum W L) in *. set (nL := Z.of_nat (length L)) in *.
  assert (0 <= closed3 W V <= 1 * open2 W V) as Hm by (apply bounds3; [|done]; intros x y Hx Hy; destruct (H01 x y Hx Hy); lia).
  assert (forall a b, a ∈ N -> b ∈ N -> 0 <= A a b <= nL) as HA.
  { intros a b Ha Hb. unfold A, layer_sum. split; [apply zsumf_nonneg|unfold nL; rewrite <- (Z.mul_1_l (Z.of_nat _)), <- zsumf_const; apply zsumf_le];
      intros g Hg; (destruct (H01 (a, g) (b, g)); [by apply EV|by apply EV|lia..]). }
  assert (forall a, a ∈ N -> A a a = 0) as HA0.
  { intros a Ha. unfold A, layer_sum. rewrite (zsumf_ext _ (fun _ => 0)); [rewrite zsumf_const; lia|]. intros g Hg. apply H0. by apply EV. }
  pose proof (bounds3 A N nL HA HA0) as Ho.
  assert (0 <= zsumf (fun a => zsumf (fun b => A a b * A b a) N) N) as HR.
  { apply zsumf_nonneg. intros a Ha. apply zsumf_nonneg. intros b Hb. pose proof (HA a b Ha Hb). pose proof (HA b a Hb Ha). nia. }
  set (R := zsumf (fun a => zsumf (fun b => A a b * A b a) N) N) in *.
  assert (0 <= (nL - 1) * R) as HnR.
  { destruct (decide (nL = 0)) as [E|E]; [|unfold nL in *; nia]. assert (R = 0) as ->; [|lia]. unfold R. rewrite (zsumf_ext _ (fun _ => 0)); [rewrite zsumf_const; lia|]. intros a Ha.
    rewrite (zsumf_ext _ (fun _ => 0)); [rewrite zsumf_const; lia|]. intros b Hb. pose proof (HA a b Ha Hb). pose proof (HA b a Hb Ha). nia. }
  split.
  - intros f Hf. rewrite !elem_of_cons, elem_of_nil in Hf. destruct Hf as [->|[->|[->|[->|[->|[->|[]]]]]]]; eapply ratio_unit; try eassumption; lia.
  - intros q q' Hq Hq'. destruct H5 as [H5 H5'], H6 as [H6 H6']. destruct (decide (nL * open2 A N = 0)) as [E|E]; [by rewrite (H5 E) in Hq'|].
    destruct (H5' E) as (r' & Hr' & Er'). rewrite Hq' in Hr'. injection Hr' as <-. assert (nL * open2 A N + (nL - 1) * R <> 0) as E' by lia.
    destruct (H6' E') as (r & Hr & Er). rewrite Hq in Hr. injection Hr as <-. rewrite Er, Er'.
    apply Qle_shift_div_l; [unfold Qlt; simpl; lia|]. 
    apply (Qle_trans _ (inject_Z (closed3 A N) / inject_Z (nL * open2 A N + (nL - 1) * R) * inject_Z (nL * open2 A N + (nL - 1) * R))).
    + rewrite !(Qmult_comm (inject_Z (closed3 A N) / _)). apply Qmult_le_compat_r; [unfold Qle; simpl; lia|]. apply Qle_shift_div_l; [unfold Qlt; simpl; lia|].
      unfold Qle; simpl; lia.
    + rewrite Qmult_comm, Qmult_div_r; [apply Qle_refl|]. unfold Qeq; simpl; lia.
Qed.
(** The documentation of none of these functions says so, but [gcc_contraction_o] and
    [gcc_contraction_o2] compute different numbers when there are several layers. *)
Theorem C64_o_variants_refuted : exists h p q q', mhist [CCat 1] false 0 true h p /\
  gcc_contraction_o (mget4 p) (mnodes p) (lays p) = Ok (Some q) /\ gcc_contraction_o2 (mget4 p) (mnodes p) (lays p) = Ok (Some q') /\ ~ (q == q')%Q.
Proof. exists ex_bat.1, ex_bat.2. do 2 eexists. split; [apply mcalls_hist|]. split; [vm_compute; reflexivity|]. split; [vm_compute; reflexivity|]. by vm_compute. Qed.
(** Without couplings [net[a,a,g,d]] raises, and so do the m variants. *)
Theorem C64_no_coupling_raises : exists h p, mhist [CNone None] false 0 true h p /\ gcc_contraction_m (mget4 p) (mnodes p) (lays p) = Err GenericException.
Proof.
  exists (mcalls (new_mpx [CNone None] false 0 true) [MSet [n1; n2; sa] 1; MSet [n1; n2; sb] 1]).1, (mcalls (new_mpx [CNone None] false 0 true) [MSet [n1; n2; sa] 1; MSet [n1; n2; sb] 1]).2.
  split; [apply mcalls_hist|]. by vm_compute.
Qed.
(** Non-vacuity: three nodes on three coupled layers. *)
Example C64_example : exists V W q, contractions (mget4 ex_bat.2) (mnodes ex_bat.2) (lays ex_bat.2) V W /\
  gcc_contraction_m (mget4 ex_bat.2) (mnodes ex_bat.2) (lays ex_bat.2) = Ok (Some q) /\ (q == 1 # 3)%Q.
Proof.
  assert (mhist [CCat 1] false 0 true ex_bat.1 ex_bat.2) as Hh by apply mcalls_hist. pose proof (mhist_inv _ _ _ _ _ _ Hh) as Hi.
  destruct (C64_categorical_reads _ _ _ _ _ _ Hh) as [W HW]. exists (prodl (mnodes ex_bat.2) (lays ex_bat.2)), W. eexists. split; [|split; [vm_compute; reflexivity|by vm_compute]].
  assert (lists_exactly (mnodes ex_bat.2) (mhas ex_bat.2 0)) as HN by (split; [exact (g_NoDup_mnodes _ _ _ _ _ Hi)|exact (g_nodes_mhas _ _ _ _ _ Hi)]).
  assert (lists_exactly (lays ex_bat.2) (mhas ex_bat.2 1)) as HL by (split; [exact (g_NoDup_lays _ _ _ _ _ Hi eq_refl)|exact (g_lays_mhas _ _ _ _ _ Hi eq_refl)]).
  apply (C64_multiplex [CCat 1] false 0 true ex_bat.1); [done|done|done|done| |].
  - split; [apply NoDup_prodl; [apply HN|apply HL]|]. intros [a g]. rewrite elem_of_prodl. cbn [fst snd]. by rewrite (proj2 HN), (proj2 HL).
  - intros a b g d _ _ Hg Hd. apply HW; by apply HL.
Qed.
Print Assumptions C64_multiplex.
Print Assumptions C64_categorical_reads.
Print Assumptions C64_plain.
Print Assumptions C64_variants_agree.
Print Assumptions C64_bounds.
Print Assumptions C64_o_variants_refuted.
Print Assumptions C64_no_coupling_raises.
