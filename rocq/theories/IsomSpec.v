(** * Specification vocabulary for the isomorphism property C46. *)
From stdpp Require Import prelude.
From Verif Require Import Base Net NetSpec.
Local Open Scope nat_scope.

(** The image of a node-layer under one map per aspect. *)
Definition nl_image (m : nat -> name -> name) (a : nl) : nl := imap m a.
(** [f] is a bijection from the elements satisfying [P] to those satisfying [Q]. *)
Definition bijective {A} (P Q : A -> Prop) (f : A -> A) : Prop :=
  (forall x, P x -> Q (f x)) /\ (forall x y, P x -> P y -> f x = f y -> x = y) /\
  (forall y, Q y -> exists x, P x /\ f x = y).
(** [x] is an elementary layer of aspect [a] (aspect 0: a node). *)
Definition in_aspect (n : mlnet) (a : nat) (x : name) : Prop := exists s, slices n !! a = Some s /\ x ∈ s.
(** The maps [m] form an isomorphism from [n1] to [n2] with respect to the
    aspects satisfying [A]: in those aspects elementary layers are mapped
    bijectively, in the other aspects nothing moves; the node-layers of [n1] go
    onto the node-layers of [n2] and links correspond to links. *)
Definition isomorphism (A : nat -> Prop) (m : nat -> name -> name) (n1 n2 : mlnet) : Prop :=
  (forall a, A a -> bijective (in_aspect n1 a) (in_aspect n2 a) (m a)) /\
  (forall a x, ~ A a -> m a x = x) /\
  (forall b, b ∈ iter_node_layers n2 <-> exists a, a ∈ iter_node_layers n1 /\ b = nl_image m a) /\
  (forall a b, a ∈ iter_node_layers n1 -> b ∈ iter_node_layers n1 ->
     linked n1 a b <-> linked n2 (nl_image m a) (nl_image m b)).

(** Undirected graphs with coloured vertices: vertices with colours, and links. *)
Definition joined (ls : list (nat * nat)) (i j : nat) : Prop := (i, j) ∈ ls \/ (j, i) ∈ ls.
(** [f] is an isomorphism of coloured graphs. *)
Definition graph_iso (f : nat -> nat) (c1 : dict nat nat) (l1 : list (nat * nat)) (c2 : dict nat nat) (l2 : list (nat * nat)) : Prop :=
  bijective (fun i => i ∈ dkeys c1) (fun i => i ∈ dkeys c2) f /\
  (forall i, i ∈ dkeys c1 -> dget c2 (f i) = dget c1 i) /\
  (forall i j, i ∈ dkeys c1 -> j ∈ dkeys c1 -> joined l1 i j <-> joined l2 (f i) (f j)).
Definition graph_isomorphic c1 l1 c2 l2 : Prop := exists f, graph_iso f c1 l1 c2 l2.

(** The aspects selected by an [allowed_aspects] argument ([None] is "all"). *)
Definition aspect_list (k : nat) (al : option (list nat)) : list nat := match al with None => seq 0 (S k) | Some l => l end.
Definition aspects_ok (k : nat) (al : option (list nat)) : Prop := NoDup (aspect_list k al) /\ forall a, a ∈ aspect_list k al -> a <= k.
(** The part of a node-layer in the aspects that are not selected, and the
    distinct such parts of a network. *)
Definition fixed_part (asp : list nat) (a : nl) : list name := (filter (fun p => fst p ∉ asp) (imap pair a)).*2.
Definition fixed_parts (n : mlnet) (asp : list nat) (L : list (list name)) : Prop :=
  lists_exactly L (fun c => exists a, a ∈ iter_node_layers n /\ c = fixed_part asp a).
(** The names of an aspect are all numbers or all strings. *)
Definition one_kind (n : mlnet) (a : nat) : Prop :=
  (forall x, in_aspect n a x -> exists z, x = NInt z) \/ (forall x, in_aspect n a x -> exists s, x = NStr s).
(** What a list of dictionaries, one per aspect, does: names it does not list
    stay. *)
Definition dict_map (ms : list (dict name name)) (a : nat) (x : name) : name := default x (dget (default [] (ms !! a)) x).
(** The dictionaries list exactly the elementary layers in use: all of them, or
    those that move. *)
Definition lists_layers (n : mlnet) (fixed : bool) (ms : list (dict name name)) : Prop :=
  length ms = S (aspects n) /\
  forall a d, ms !! a = Some d -> NoDup (dkeys d) /\ forall x, x ∈ dkeys d <-> in_aspect n a x /\ (fixed = true \/ dict_map ms a x <> x).
(** [f] is a composition of maps in [P], as far as the elements satisfying [D]
    are concerned. *)
Inductive composed {A} (D : A -> Prop) (P : (A -> A) -> Prop) : (A -> A) -> Prop :=
  | composed_id f : (forall x, D x -> f x = x) -> composed D P f
  | composed_step f g h : composed D P f -> P g -> (forall x, D x -> h x = f (g x)) -> composed D P h.
