(** * Specification vocabulary for the graphlet properties C47-C49, C53-C55. *)
From stdpp Require Import prelude relations.
From Verif Require Import Base Net NetSpec Supra Samp Graphlet.
Local Open Scope nat_scope.

(** What a generator (a dictionary; names it does not list are fixed) does. *)
Definition gapply {V} `{EqDecision V} (g : dict V V) (x : V) : V := default x (dget g x).
(** The dictionary describes a permutation of [nodes]. *)
Definition permutes {V} `{EqDecision V} (nodes : list V) (g : dict V V) : Prop :=
  NoDup (dkeys g) /\ (forall x, x ∈ dkeys g -> x ∈ nodes) /\ g.*2 ≡ₚ g.*1.
(** Some product of the maps [fs] and their inverses takes [x] to [y]. *)
Definition moved {V} (fs : list (V -> V)) (x y : V) : Prop := rtsc (fun a b => exists f, f ∈ fs /\ b = f a) x y.

(** A node map and a layer map that list all nodes and layers in use, permute
    them, and take node-layers to node-layers. *)
Definition pair_apply (g : dict name name * dict name name) (a : name * name) : name * name := (gapply (g.1) (a.1), gapply (g.2) (a.2)).
Definition nl_permutes (nls : list (name * name)) (g : dict name name * dict name name) : Prop :=
  permutes (dkeys (g.1)) (g.1) /\ permutes (dkeys (g.2)) (g.2) /\ (forall a, a ∈ nls -> a.1 ∈ dkeys (g.1) /\ a.2 ∈ dkeys (g.2)) /\
  (forall a, a ∈ nls -> pair_apply g a ∈ nls).

(** [L] lists the sets with property [P], each once ([same_set] being equality of
    sets). *)
Definition lists_sets (L : list (list name)) (P : list name -> Prop) : Prop :=
  (forall s, s ∈ L -> NoDup s /\ P s) /\ (forall s, NoDup s -> P s -> exists t, t ∈ L /\ same_set s t) /\
  (forall i j s t, L !! i = Some s -> L !! j = Some t -> same_set s t -> i = j).

(** A partition of [s] into blocks of [r] elements. *)
Definition is_partition {V} (s : list V) (r : nat) (p : list (list V)) : Prop := concat p ≡ₚ s /\ Forall (fun b => length b = r) p.
(** Two partitions have the same blocks, up to order. *)
Definition same_partition {V} (p q : list (list V)) : Prop :=
  (forall b, b ∈ p -> exists c, c ∈ q /\ b ≡ₚ c) /\ (forall c, c ∈ q -> exists b, b ∈ p /\ b ≡ₚ c).

(** Reachability in a directed graph given by successor lists, and strong
    connection. *)
Definition arc {V} `{EqDecision V} (net : dict V (list V)) (x y : V) : Prop := exists us, dget net x = Some us /\ y ∈ us.
Definition strong {V} `{EqDecision V} (net : dict V (list V)) (x y : V) : Prop := rtc (arc net) x y /\ rtc (arc net) y x.
(** In the list of sets [L] no arc leads to a later set. *)
Definition sinks_first {V} `{EqDecision V} (net : dict V (list V)) (L : list (list V)) : Prop :=
  forall L1 c L2 x y, L = L1 ++ c :: L2 -> x ∈ c -> arc net x y -> y ∈ concat (L1 ++ [c]).

(** A set of names connected through the neighbour relation [R]. *)
Definition set_connected (R : name -> name -> Prop) (s : list name) : Prop :=
  forall x y, x ∈ s -> y ∈ s -> rtc (fun a b => R a b /\ a ∈ s /\ b ∈ s) x y.
(** Some replica of [a] and some replica of [b] are joined by a link, in either
    direction (one aspect). *)
Definition adjacent (n : mlnet) (a b : name) : Prop := exists la lb, linked n [a; la] [b; lb] \/ linked n [b; lb] [a; la].
