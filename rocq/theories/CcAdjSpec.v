(** * What the properties of the matrix versions say *)
From Verif Require Export MpxSpec CcSpec.
Open Scope Z_scope.

(** The matrix [M] holds the weights of the links of the kind [P], and 0 elsewhere. *)
Definition weighs (p : mpx) (P : nl -> nl -> Prop) (M : nl -> nl -> Z) : Prop :=
  forall a b, (P a b /\ mreads p a b (M a b)) \/ (~ P a b /\ M a b = 0).
(** There are at least two nodes. *)
Definition two_nodes (p : mpx) : Prop := exists x y, mhas p 0 x /\ mhas p 0 y /\ x <> y.
(** [nodes] lists all combinations of a node and a layer once. *)
Definition node_layer_grid (p : mpx) (nodes : list nl) : Prop :=
  lists_exactly nodes (fun a => exists x l, a = [x; l] /\ mhas p 0 x /\ mhas p 1 l).
