(** * Specification vocabulary for the network models *)
From Verif Require Export Models MpxSpec.

(** [k] is a possible result of [random.sample(range(N),m)]. *)
Definition is_sample (N m : nat) (k : list nat) : Prop :=
  length k = m /\ NoDup k /\ forall i, i ∈ k -> i < N.

(** [n] is an undirected network with no aspects, its nodes are exactly those
    satisfying [N] and its links exactly the pairs satisfying [P], all of weight 1. *)
Definition simple_net (n : mlnet) (N : name -> Prop) (P : name -> name -> Prop) : Prop :=
  reachable n /\ aspects n = 0 /\ directed n = false /\ noEdge n = 0%Z /\ (forall x, has_elem n 0 x <-> N x) /\
  (forall x y, linked n [x] [y] <-> P x y) /\ (forall x y, linked n [x] [y] -> reads n [x] [y] 1).

(** [p] is a network with one aspect in which the links of layer [l] between
    different nodes are exactly the pairs satisfying [P], all of weight 1, and no
    node of the layer has a self-link. *)
Definition layer_links (p : mpx) (l : name) (P : name -> name -> Prop) : Prop :=
  (forall x y, x <> y -> (P x y -> mreads p [x; l] [y; l] 1) /\ (~ P x y -> mreads p [x; l] [y; l] 0)) /\
  (forall x, mexists p [x; l] -> agetitem p (LBare l) [x; x] = Ok 0%Z).

(** [L] lists every pair of [P] in exactly one of its two orientations. *)
Definition lists_pairs (L : list (name * name)) (P : name -> name -> Prop) : Prop :=
  NoDup L /\ (forall x y, (x, y) ∈ L -> (y, x) ∉ L) /\ forall x y, P x y <-> (x, y) ∈ L \/ (y, x) ∈ L.

(** The random outcomes that [single_layer_er] of [n] nodes can see. *)
Definition er_par_ok (n : nat) (par : er_par) : Prop :=
  match par with ErEdges m k => is_sample (n * (n - 1) / 2) m k | ErP p _ => (0 < p)%Q /\ (p <= 1)%Q end.
(** The positions that are drawn: all of them for p=1; the sample for a number of
    edges; s0, s0+1+s1, s0+1+s1+1+s2, ... for skips s0, s1, s2, ... *)
Definition drawn (par : er_par) (pos : nat) : Prop :=
  match par with
  | ErEdges _ k => pos ∈ k
  | ErP p s => (p == 1)%Q \/ exists i, pos = i + sum_list (s <$> seq 0 (S i))
  end.
(** [x] and [y] are joined: the position of their pair is drawn.  Pairs of list
    positions w<v are numbered row by row: (1,0), (2,0), (2,1), (3,0), ... *)
Definition er_linked (nodes : list name) (par : er_par) (x y : name) : Prop :=
  exists v w, w < v /\ drawn par (v * (v - 1) / 2 + w) /\
    (nodes !! v = Some x /\ nodes !! w = Some y \/ nodes !! v = Some y /\ nodes !! w = Some x).
