(** * Specification vocabulary for the orbit equations *)
From stdpp Require Import prelude.
From Verif Require Import Base MpxSpec Graphlet GraphletSpec EnumSpec CountSpec.
Local Open Scope nat_scope.

(** [L] lists the pairs of sets with property [P], each once; [k] is their number. *)
Definition lists_pairs (L : list (list name * list name)) (P : list name -> list name -> Prop) : Prop :=
  (forall s t, (s, t) ∈ L -> NoDup s /\ NoDup t /\ P s t) /\
  (forall s t, NoDup s -> NoDup t -> P s t -> exists s' t', (s', t') ∈ L /\ same_set s s' /\ same_set t t') /\
  (forall i j s t s' t', L !! i = Some (s, t) -> L !! j = Some (s', t') -> same_set s s' -> same_set t t' -> i = j).
Definition counts_pairs (k : nat) (P : list name -> list name -> Prop) : Prop := exists L, lists_pairs L P /\ length L = k.
(** The node sets [s] and [t] cover [p] and share [b] nodes, one of them [x]; [x] occupies [o1] in
    the subnetwork on [s] and [o2] in the subnetwork on [t]. *)
Definition covers (c : coupling) (al : option (list nat)) (nets : dict nat (list mpx)) (auts : dict orbit name) (p : mpx) (x : name) (o1 o2 : orbit) (b : nat) (s t : list name) : Prop :=
  (forall z, mhas p 0 z <-> z ∈ s \/ z ∈ t) /\ x ∈ s /\ x ∈ t /\ length (filter (fun z => z ∈ t) s) = b /\
  occupies c al nets auts p x o1 s /\ occupies c al nets auts p x o2 t.
(** The sum of [f] over a list of orbits. *)
Fixpoint sum_over (f : orbit -> nat) (l : list orbit) : nat := match l with [] => 0 | o :: l => f o + sum_over f l end.
(** An orbit of a graphlet with at most [n] nodes. *)
Definition is_orbit (n : nat) (nets : dict nat (list mpx)) (auts : dict orbit name) (o : orbit) : Prop :=
  2 <= o.1.1 <= n /\ exists g y, graphlet_at nets (o.1.1) (o.1.2) g /\ mhas g 0 y /\ dget auts (o.1, y) = Some (o.2).
(** The number of nodes of the graphlet of an orbit. *)
Definition size (o : orbit) : nat := o.1.1.
(** [g] is the graphlet of the orbit [o] and [y] a node of [g] in [o]. *)
Definition in_graphlet (nets : dict nat (list mpx)) (auts : dict orbit name) (o : orbit) (g : mpx) (y : name) : Prop :=
  graphlet_at nets (o.1.1) (o.1.2) g /\ mhas g 0 y /\ dget auts (o.1, y) = Some (o.2).
