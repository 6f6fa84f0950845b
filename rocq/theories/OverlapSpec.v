(** * Specification vocabulary for [er_overlaps_match_aggregated]

    The argument [ps] is a list of pairs: a layer combination and the value of
    [int(round(p*edges))] for its proportion p. *)
From Verif Require Export ModelsOverlap ModelsSpec.

(** [l] is a layer of some combination. *)
Definition ov_mentioned (ps : list (list name * Z)) (l : name) : Prop := exists cm, cm ∈ ps /\ l ∈ cm.1.
(** How often [l] occurs in the combination. *)
Definition ov_count (l : name) (ls : list name) : Z := Z.of_nat (length (filter (fun x => x = l) ls)).
(** The number of pairs that a combination of k layers gets: k*m if k is at least 2. *)
Definition ov_need (cm : list name * Z) : nat :=
  if decide (2 <= length (cm.1)) then Z.to_nat (Z.of_nat (length (cm.1)) * cm.2) else 0.
(** The number of pairs that a layer still gets for itself: [edges] minus m for every
    combination of at least two layers in which it occurs. *)
Definition ov_left (edges : Z) (ps : list (list name * Z)) (l : name) : Z :=
  (edges - zsumf (fun cm : list name * Z => if decide (2 <= length (cm.1))%nat then cm.2 * ov_count l (cm.1) else 0) ps)%Z.
(** Different pairs i < j of the nodes 0, ..., n-1. *)
Definition node_pairs (n : nat) (L : list (name * name)) : Prop :=
  NoDup L /\ forall x y, (x, y) ∈ L -> exists i j, i < j /\ j < n /\ x = NInt (Z.of_nat i) /\ y = NInt (Z.of_nat j).
(** The pair x, y is in [L], in one of its two orders. *)
Definition pair_in (x y : name) (L : list (name * name)) : Prop := (x, y) ∈ L \/ (y, x) ∈ L.
