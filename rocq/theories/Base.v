(** * Python prelude shared by all model files.

    Names, exceptions, dictionaries (association lists in insertion order),
    sets (duplicate-free lists), [itertools.product] and finite sums.  These
    are models of Python built-ins, not of a particular file in /repo. *)
From stdpp Require Export prelude strings sorting.
From Coq Require Export ZArith Lia.

(** Node names and elementary layer names.  Python allows any hashable object;
    the model has unbounded integers and strings (simplification: no other
    name types; two names are equal iff Python's [==] says so). *)
Inductive name := NInt (z : Z) | NStr (s : string).
Global Instance name_eq_dec : EqDecision name.
Proof. solve_decision. Defined.

(** A node-layer tuple (i,s_1,...,s_d). *)
Notation nl := (list name).

(** A layer used as a dictionary key or argument: with one aspect Python uses
    the bare elementary layer, with several aspects a tuple. *)
Inductive layer := LBare (l : name) | LTup (ls : list name).
Global Instance layer_eq_dec : EqDecision layer.
Proof. solve_decision. Defined.

(** Python exceptions as values. *)
Inductive exn :=
| KeyError | AssertionError | TypeError | IndexError | ValueError
| ZeroDivisionError | NameError | AttributeError | RuntimeError
| GenericException (** [raise Exception(...)] *) | StopIter
| OutOfFuel (** not a Python exception: the model ran out of fuel *).
Global Instance exn_eq_dec : EqDecision exn.
Proof. solve_decision. Defined.

Inductive res (A : Type) := Ok (a : A) | Err (e : exn).
Arguments Ok {A} _. Arguments Err {A} _.
Global Instance res_eq_dec `{EqDecision A} : EqDecision (res A).
Proof. solve_decision. Defined.

Definition rbind {A B} (m : res A) (f : A -> res B) : res B :=
  match m with Ok a => f a | Err e => Err e end.
Definition rmap {A B} (f : A -> B) (m : res A) : res B :=
  match m with Ok a => Ok (f a) | Err e => Err e end.
Notation "'let?' x ':=' m 'in' k" := (rbind m (fun x => k))
  (at level 200, x pattern, m at level 100, k at level 200, right associativity).

(** [for x in l: s = f(s,x)] where the body may raise. *)
Fixpoint rfold {S A} (f : S -> A -> res S) (s : S) (l : list A) : res S :=
  match l with
  | [] => Ok s
  | x :: l => match f s x with Ok s' => rfold f s' l | Err e => Err e end
  end.
Fixpoint rmapM {A B} (f : A -> res B) (l : list A) : res (list B) :=
  match l with
  | [] => Ok []
  | x :: l => match f x with
              | Ok y => match rmapM f l with Ok ys => Ok (y :: ys) | Err e => Err e end
              | Err e => Err e end
  end.

(** Case analysis on a decision in the goal only. *)
Tactic Notation "gdec" "as" simple_intropattern(p) :=
  match goal with |- context [@decide ?P ?D] => destruct (@decide P D) as p end.
Tactic Notation "gdec" := 
  match goal with |- context [@decide ?P ?D] => destruct (@decide P D) end.

(** ** Dictionaries *)
Notation dict K V := (list (K * V)) (only parsing).

Section dict.
  Context {K V : Type} `{EqDecision K}.
  Implicit Types d : dict K V.

  Fixpoint dget d (k : K) : option V :=
    match d with
    | [] => None
    | (k', v) :: d => if decide (k = k') then Some v else dget d k
    end.
  (** [d[k]=v]: overwrite in place or append at the end. *)
  Fixpoint dset d (k : K) (v : V) : dict K V :=
    match d with
    | [] => [(k, v)]
    | (k', v') :: d => if decide (k = k') then (k', v) :: d else (k', v') :: dset d k v
    end.
  (** [del d[k]] (the KeyError for a missing key is raised by the callers). *)
  Fixpoint ddel d (k : K) : dict K V :=
    match d with
    | [] => []
    | (k', v') :: d => if decide (k = k') then ddel d k else (k', v') :: ddel d k
    end.
  Definition dkeys d : list K := d.*1.
  Definition din d (k : K) : bool := match dget d k with Some _ => true | None => false end.

  Lemma dget_dset d k k' v :
    dget (dset d k v) k' = if decide (k' = k) then Some v else dget d k'.
  Proof.
    induction d as [|[k1 v1] d IH]; simpl.
    - by destruct (decide (k' = k)).
    - destruct (decide (k = k1)) as [->|Hk]; simpl.
      + by destruct (decide (k' = k1)).
      + rewrite IH. destruct (decide (k' = k1)), (decide (k' = k)); congruence.
  Qed.
  Lemma dget_dset_eq d k v : dget (dset d k v) k = Some v.
  Proof. rewrite dget_dset. by rewrite decide_True. Qed.
  Lemma dget_dset_ne d k k' v : k' <> k -> dget (dset d k v) k' = dget d k'.
  Proof. intros. rewrite dget_dset. by rewrite decide_False. Qed.
  Lemma dget_ddel d k k' :
    dget (ddel d k) k' = if decide (k' = k) then None else dget d k'.
  Proof.
    induction d as [|[k1 v1] d IH]; simpl.
    - by destruct (decide (k' = k)).
    - destruct (decide (k = k1)) as [->|Hk]; simpl.
      + rewrite IH. by destruct (decide (k' = k1)).
      + rewrite IH. destruct (decide (k' = k1)), (decide (k' = k)); congruence.
  Qed.
  Lemma dget_None d k : dget d k = None <-> k ∉ dkeys d.
  Proof.
    unfold dkeys. induction d as [|[k1 v1] d IH]; simpl.
    - split; [intros _; apply not_elem_of_nil|done].
    - rewrite not_elem_of_cons. destruct (decide (k = k1)) as [->|Hk]; [naive_solver|].
      rewrite IH. naive_solver.
  Qed.
  Lemma dget_Some_key d k v : dget d k = Some v -> k ∈ dkeys d.
  Proof.
    intros Hg. destruct (decide (k ∈ dkeys d)) as [|Hn]; [done|].
    apply dget_None in Hn. congruence.
  Qed.
  Lemma dkeys_dget d k : k ∈ dkeys d -> exists v, dget d k = Some v.
  Proof.
    intros Hk. destruct (dget d k) as [v|] eqn:E; [eauto|].
    apply dget_None in E. done.
  Qed.
  Lemma elem_of_dkeys d k : k ∈ dkeys d <-> is_Some (dget d k).
  Proof. split; [intros ?%dkeys_dget; done|intros [v ?]; by eapply dget_Some_key]. Qed.
  Lemma din_true d k : din d k = true <-> is_Some (dget d k).
  Proof. unfold din. destruct (dget d k); split; try done; intros [? ?]; done. Qed.
  Lemma din_false d k : din d k = false <-> dget d k = None.
  Proof. unfold din. by destruct (dget d k). Qed.
  Lemma elem_of_dkeys_dset d k v k' : k' ∈ dkeys (dset d k v) <-> k' = k \/ k' ∈ dkeys d.
  Proof.
    rewrite !elem_of_dkeys, dget_dset. destruct (decide (k' = k)) as [->|Hne].
    - split; [by left|intros _; eauto].
    - split; [by right|intros [?|?]; done].
  Qed.
  Lemma NoDup_dset d k v : NoDup (dkeys d) -> NoDup (dkeys (dset d k v)).
  Proof.
    unfold dkeys. induction d as [|[k1 v1] d IH]; simpl.
    - intros _. apply NoDup_singleton.
    - intros Hnd. apply NoDup_cons in Hnd as [Hn Hnd].
      destruct (decide (k = k1)) as [->|Hk]; simpl.
      + by apply NoDup_cons.
      + apply NoDup_cons. split; [|by apply IH].
        intros Hin. change (k1 ∈ dkeys (dset d k v)) in Hin.
        apply elem_of_dkeys_dset in Hin as [?|?]; first [congruence|done].
  Qed.
  Lemma elem_of_dkeys_ddel d k k' : k' ∈ dkeys (ddel d k) <-> k' <> k /\ k' ∈ dkeys d.
  Proof.
    rewrite !elem_of_dkeys, dget_ddel. destruct (decide (k' = k)) as [->|Hne].
    - split; [intros [? ?]; done|naive_solver].
    - naive_solver.
  Qed.
  Lemma NoDup_ddel d k : NoDup (dkeys d) -> NoDup (dkeys (ddel d k)).
  Proof.
    unfold dkeys. induction d as [|[k1 v1] d IH]; simpl; [done|].
    intros Hnd. apply NoDup_cons in Hnd as [Hn Hnd].
    destruct (decide (k = k1)) as [->|Hk]; simpl; [by apply IH|].
    apply NoDup_cons. split; [|by apply IH].
    intros Hin. change (k1 ∈ dkeys (ddel d k)) in Hin.
    apply elem_of_dkeys_ddel in Hin as [_ Hin]. done.
  Qed.
  Lemma dget_elem_of d k v : NoDup (dkeys d) -> (k, v) ∈ d <-> dget d k = Some v.
  Proof.
    induction d as [|[k1 v1] d IH]; simpl; intros Hnd.
    - split; [by intros ?%elem_of_nil|done].
    - unfold dkeys in Hnd. simpl in Hnd. apply NoDup_cons in Hnd as [Hn Hnd].
      rewrite elem_of_cons. destruct (decide (k = k1)) as [->|Hk].
      + split; [|by intros [= ->]; left].
        intros [[= ->]|Hin]; [done|]. exfalso. apply Hn. apply elem_of_list_fmap. by exists (k1, v).
      + rewrite <- (IH Hnd). naive_solver.
  Qed.
  Lemma dset_length_old d k v : is_Some (dget d k) -> length (dset d k v) = length d.
  Proof.
    induction d as [|[k1 v1] d IH]; simpl; [by intros [? ?]|].
    destruct (decide (k = k1)); [done|]. simpl. intros. by rewrite IH.
  Qed.
  Lemma dset_length_new d k v : dget d k = None -> length (dset d k v) = S (length d).
  Proof.
    induction d as [|[k1 v1] d IH]; simpl; [done|].
    destruct (decide (k = k1)); [done|]. simpl. intros. by rewrite IH.
  Qed.
  Lemma dkeys_dset_old d k v : is_Some (dget d k) -> dkeys (dset d k v) = dkeys d.
  Proof.
    unfold dkeys. induction d as [|[k1 v1] d IH]; simpl; [by intros [? ?]|].
    destruct (decide (k = k1)); [done|]. simpl. intros. f_equal. by apply IH.
  Qed.
  Lemma dkeys_dset_new d k v : dget d k = None -> dkeys (dset d k v) = dkeys d ++ [k].
  Proof.
    unfold dkeys. induction d as [|[k1 v1] d IH]; simpl; [done|].
    destruct (decide (k = k1)); [done|]. simpl. intros. f_equal. by apply IH.
  Qed.
  Lemma dkeys_length d : length (dkeys d) = length d.
  Proof. unfold dkeys. by rewrite fmap_length. Qed.
End dict.

(** Decidable list membership as a boolean ([x in l]). *)
Definition lin {A} `{EqDecision A} (x : A) (l : list A) : bool := bool_decide (x ∈ l).
Lemma lin_true {A} `{EqDecision A} (x : A) l : lin x l = true <-> x ∈ l.
Proof. unfold lin. by rewrite bool_decide_eq_true. Qed.
Lemma lin_false {A} `{EqDecision A} (x : A) l : lin x l = false <-> x ∉ l.
Proof. unfold lin. by rewrite bool_decide_eq_false. Qed.

(** ** Sets: duplicate-free lists *)
Section sets.
  Context {A : Type} `{EqDecision A}.
  (** [s.add(x)] *)
  Definition sadd (x : A) (s : list A) : list A := if decide (x ∈ s) then s else s ++ [x].
  Lemma elem_of_sadd x y s : x ∈ sadd y s <-> x = y \/ x ∈ s.
  Proof.
    unfold sadd. destruct (decide (y ∈ s)); [naive_solver|].
    rewrite elem_of_app, elem_of_list_singleton. naive_solver.
  Qed.
  Lemma NoDup_sadd x s : NoDup s -> NoDup (sadd x s).
  Proof.
    intros Hs. unfold sadd. destruct (decide (x ∈ s)); [done|].
    apply NoDup_app. repeat split; [done| |apply NoDup_singleton].
    intros y Hy ->%elem_of_list_singleton. done.
  Qed.
  Lemma sadd_idem x s : x ∈ s -> sadd x s = s.
  Proof. intros. unfold sadd. by rewrite decide_True. Qed.
End sets.

(** ** itertools.product *)
Fixpoint cart {A} (ls : list (list A)) : list (list A) :=
  match ls with
  | [] => [[]]
  | l :: ls => l ≫= (λ x, (x ::.) <$> cart ls)
  end.

Lemma elem_of_cart {A} (ls : list (list A)) (t : list A) :
  t ∈ cart ls <-> Forall2 (∈) t ls.
Proof.
  revert t. induction ls as [|l ls IH]; intros t; cbn [cart].
  - rewrite elem_of_list_singleton. split; [by intros ->; constructor|].
    by intros ?%Forall2_nil_inv_r.
  - rewrite elem_of_list_bind. split.
    + intros (x & Ht & Hx). apply elem_of_list_fmap in Ht as (t' & -> & Ht').
      constructor; [done|]. by apply IH.
    + intros (x & t' & Hx & Ht' & ->)%Forall2_cons_inv_r.
      exists x. split; [|done]. apply elem_of_list_fmap. exists t'. split; [done|]. by apply IH.
Qed.

Lemma NoDup_bind {A B} (f : A -> list B) (l : list A) :
  NoDup l ->
  (forall x, x ∈ l -> NoDup (f x)) ->
  (forall x y z, x ∈ l -> y ∈ l -> z ∈ f x -> z ∈ f y -> x = y) ->
  NoDup (l ≫= f).
Proof.
  induction l as [|x l IH]; intros Hnd Hf Hdisj; [constructor|].
  apply NoDup_cons in Hnd as [Hx Hnd]. cbn. apply NoDup_app. repeat split.
  - apply Hf. left.
  - intros z Hz Hz'. apply elem_of_list_bind in Hz' as (y & Hy & Hyl).
    assert (x = y) as -> by (eapply Hdisj; [left|by right|done|done]). done.
  - apply IH; [done| |].
    + intros y Hy. apply Hf. by right.
    + intros y1 y2 z H1 H2. apply Hdisj; by right.
Qed.

Lemma NoDup_cart {A} (ls : list (list A)) : Forall NoDup ls -> NoDup (cart ls).
Proof.
  induction ls as [|l ls IH]; cbn [cart]; intros Hnd.
  - apply NoDup_singleton.
  - apply Forall_cons in Hnd as [Hl Hls]. apply NoDup_bind; [done| |].
    + intros x _. apply NoDup_fmap; [by intros ?? [= ?]|by apply IH].
    + intros x y z _ _ (t & -> & _)%elem_of_list_fmap (t' & Heq & _)%elem_of_list_fmap.
      by injection Heq.
Qed.

(** ** Finite sums over Z *)
Definition zsum (l : list Z) : Z := foldr Z.add 0%Z l.
Lemma zsum_nil : zsum [] = 0%Z. Proof. done. Qed.
Lemma zsum_cons x l : zsum (x :: l) = (x + zsum l)%Z. Proof. done. Qed.
Lemma zsum_app l1 l2 : zsum (l1 ++ l2) = (zsum l1 + zsum l2)%Z.
Proof. induction l1 as [|x l1 IH]; [done|]. rewrite <- app_comm_cons, !zsum_cons. lia. Qed.
Lemma zsum_perm l1 l2 : l1 ≡ₚ l2 -> zsum l1 = zsum l2.
Proof. induction 1; rewrite ?zsum_cons; lia. Qed.
(** Sum of [f] over a list. *)
Definition zsumf {A} (f : A -> Z) (l : list A) : Z := zsum (f <$> l).
Lemma zsumf_cons {A} (f : A -> Z) x l : zsumf f (x :: l) = (f x + zsumf f l)%Z.
Proof. done. Qed.
Lemma zsumf_nil {A} (f : A -> Z) : zsumf f [] = 0%Z.
Proof. done. Qed.
Lemma zsumf_app {A} (f : A -> Z) l1 l2 : zsumf f (l1 ++ l2) = (zsumf f l1 + zsumf f l2)%Z.
Proof. unfold zsumf. by rewrite fmap_app, zsum_app. Qed.
Lemma zsumf_perm {A} (f : A -> Z) l1 l2 : l1 ≡ₚ l2 -> zsumf f l1 = zsumf f l2.
Proof. intros Hp. unfold zsumf. apply zsum_perm. by rewrite Hp. Qed.
Lemma zsumf_ext {A} (f g : A -> Z) l : (forall x, x ∈ l -> f x = g x) -> zsumf f l = zsumf g l.
Proof.
  induction l as [|x l IH]; intros Hfg; [done|]. rewrite !zsumf_cons.
  rewrite (Hfg x) by left. rewrite IH; [done|]. intros y Hy. apply Hfg. by right.
Qed.
Lemma zsumf_add {A} (f g : A -> Z) l : zsumf (fun x => f x + g x)%Z l = (zsumf f l + zsumf g l)%Z.
Proof. induction l as [|x l IH]; [done|]. rewrite !zsumf_cons. lia. Qed.
Lemma zsumf_const {A} (c : Z) (l : list A) : zsumf (fun _ => c) l = (c * Z.of_nat (length l))%Z.
Proof. induction l as [|x l IH]; cbn [length]; [rewrite zsumf_nil; lia|]. rewrite zsumf_cons. lia. Qed.
Lemma zsumf_mul_l {A} (c : Z) (f : A -> Z) l : zsumf (fun x => c * f x)%Z l = (c * zsumf f l)%Z.
Proof. induction l as [|x l IH]; [rewrite !zsumf_nil; lia|]. rewrite !zsumf_cons. lia. Qed.
Lemma zsumf_swap {A B} (f : A -> B -> Z) l1 l2 :
  zsumf (fun x => zsumf (f x) l2) l1 = zsumf (fun y => zsumf (fun x => f x y) l1) l2.
Proof.
  induction l1 as [|x l1 IH].
  - rewrite zsumf_nil. induction l2 as [|y l2 IH2]; [done|]. rewrite zsumf_cons, <- IH2. done.
  - rewrite zsumf_cons, IH, <- zsumf_add. apply zsumf_ext. intros y _. by rewrite zsumf_cons.
Qed.
Lemma zsumf_bind {A B} (f : B -> Z) (g : A -> list B) l :
  zsumf f (l ≫= g) = zsumf (fun x => zsumf f (g x)) l.
Proof. induction l as [|x l IH]; [done|]. rewrite zsumf_cons, <- IH.
  change ((x :: l) ≫= g) with (g x ++ (l ≫= g)). by rewrite zsumf_app. Qed.
Lemma zsumf_fmap {A B} (f : B -> Z) (g : A -> B) l : zsumf f (g <$> l) = zsumf (fun x => f (g x)) l.
Proof. unfold zsumf. by rewrite <- list_fmap_compose. Qed.
Lemma zsumf_nonneg {A} (f : A -> Z) l : (forall x, x ∈ l -> 0 <= f x)%Z -> (0 <= zsumf f l)%Z.
Proof.
  induction l as [|x l IH]; intros Hf; [done|]. rewrite zsumf_cons.
  pose proof (Hf x ltac:(left)). assert (0 <= zsumf f l)%Z; [|lia].
  apply IH. intros y Hy. apply Hf. by right.
Qed.
Lemma zsumf_le {A} (f g : A -> Z) l : (forall x, x ∈ l -> f x <= g x)%Z -> (zsumf f l <= zsumf g l)%Z.
Proof.
  induction l as [|x l IH]; intros Hf; [done|]. rewrite !zsumf_cons.
  pose proof (Hf x ltac:(left)). assert (zsumf f l <= zsumf g l)%Z; [|lia].
  apply IH. intros y Hy. apply Hf. by right.
Qed.
Lemma zsumf_zero {A} (f : A -> Z) l : (forall x, x ∈ l -> f x = 0)%Z -> zsumf f l = 0%Z.
Proof.
  intros Hf. rewrite (zsumf_ext f (fun _ => 0%Z)); [|done]. rewrite zsumf_const. lia.
Qed.
Lemma zsumf_filter {A} (P : A -> Prop) `{!forall x, Decision (P x)} (f : A -> Z) l :
  zsumf f (filter P l) = zsumf (fun x => if decide (P x) then f x else 0%Z) l.
Proof.
  induction l as [|x l IH]; [done|]. rewrite filter_cons, zsumf_cons.
  destruct (decide (P x)); [rewrite zsumf_cons|]; lia.
Qed.
(** A sum whose only non-zero term is at [a]. *)
Lemma zsumf_single {A} `{EqDecision A} (f : A -> Z) l a :
  NoDup l -> a ∈ l -> (forall x, x ∈ l -> x <> a -> f x = 0%Z) -> zsumf f l = f a.
Proof.
  induction l as [|x l IH]; intros Hnd Ha Hz; [by apply elem_of_nil in Ha|].
  apply NoDup_cons in Hnd as [Hx Hnd]. rewrite zsumf_cons.
  destruct (decide (x = a)) as [->|Hne].
  - rewrite zsumf_zero; [lia|]. intros y Hy. apply Hz; [by right|]. by intros ->.
  - apply elem_of_cons in Ha as [?|Ha]; [congruence|].
    rewrite (Hz x) by (left || done). rewrite IH; [lia|done|done|].
    intros y Hy. apply Hz. by right.
Qed.

(** Two duplicate-free lists with the same members are permutations. *)
Lemma NoDup_same_perm {A} (l1 l2 : list A) :
  NoDup l1 -> NoDup l2 -> (forall x, x ∈ l1 <-> x ∈ l2) -> l1 ≡ₚ l2.
Proof. intros. by apply NoDup_Permutation. Qed.

Lemma rfold_app {S A} (f : S -> A -> res S) s l1 l2 :
  rfold f s (l1 ++ l2) = rbind (rfold f s l1) (fun s' => rfold f s' l2).
Proof.
  revert s. induction l1 as [|x l1 IH]; intros s; cbn; [done|].
  destruct (f s x); [apply IH|done].
Qed.
