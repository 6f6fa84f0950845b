(** * Specification vocabulary for the enumeration of graphlets *)
From stdpp Require Import prelude relations.
From Verif Require Export MpxSpec MpxHist.
Local Open Scope nat_scope.

(** [x] and [y] are linked inside the layer [l]. *)
Definition tied (p : mpx) (l x y : name) : Prop := exists w, agetitem p (LBare l) [x; y] = Ok w /\ w <> 0%Z.
(** The links inside the layers have weight 1. *)
Definition unit_weights (p : mpx) : Prop := forall l x y w, agetitem p (LBare l) [x; y] = Ok w -> w = 0%Z \/ w = 1%Z.

(** [p] is a connected, fully interconnected, undirected multiplex network without
    self-loops, with coupling [c], [k] nodes and [n_l] layers that are among [layers]. *)
Record graphlet (c : coupling) (layers : list name) (n_l k : nat) (p : mpx) : Prop := {
  gl_net : exists h, mhist [c] false 0 true h p;
  gl_nodes : exists s, lists_exactly s (mhas p 0) /\ length s = k;
  gl_layers : exists t, lists_exactly t (mhas p 1) /\ length t = n_l /\ forall l, l ∈ t -> l ∈ layers;
  gl_loops : forall l x, ~ tied p l x x;
  gl_conn : forall x y, mhas p 0 x -> mhas p 0 y -> rtc (fun a b => exists l, tied p l a b) x y }.
(** The nodes of [p] are 0, ..., k-1. *)
Definition nodes_range (p : mpx) (k : nat) : Prop := forall x, mhas p 0 x <-> exists i, i < k /\ x = NInt (Z.of_nat i).
(** The coupling can be used on the layers: nonzero weight; ordinal couplings need numbers. *)
Definition coupling_fits (c : coupling) (layers : list name) : Prop :=
  match c with
  | CCat w => w <> 0%Z
  | COrd w => w <> 0%Z /\ forall l, l ∈ layers -> exists z, l = NInt z
  | CNone _ => True
  | CNet _ => False
  end.
(** All names are numbers, or all are strings. *)
Definition one_kind (l : list name) : Prop := (forall x, x ∈ l -> exists z, x = NInt z) \/ (forall x, x ∈ l -> exists s, x = NStr s).
