(** * Specification vocabulary for the sampling properties C43-C45. *)
From stdpp Require Import prelude relations.
From Coq Require Import QArith.
From Verif Require Import Base Net NetSpec Samp.
Local Open Scope nat_scope.

(** There are exactly [z] names with the property [P]. *)
Definition has_size (P : name -> Prop) (z : Z) : Prop := exists L, lists_exactly L P /\ z = Z.of_nat (length L).

(** [a] is a node-layer of [n] inside the selection of nodes [A] and layers [B]. *)
Definition sel_in (n : mlnet) (A B : list name) (a : nl) : Prop :=
  a ∈ iter_node_layers n /\ exists x l, a = [x; l] /\ x ∈ A /\ l ∈ B.
(** Two node-layers linked inside the selection. *)
Definition sel_linked (n : mlnet) (A B : list name) (a b : nl) : Prop :=
  sel_in n A B a /\ sel_in n A B b /\ linked n a b.
(** The induced subgraph is nonempty and connected. *)
Definition sel_connected (n : mlnet) (A B : list name) : Prop :=
  (exists a, sel_in n A B a) /\ forall a b, sel_in n A B a -> sel_in n A B b -> rtc (sel_linked n A B) a b.
(** No node and no layer of the selection is empty. *)
Definition sel_full (n : mlnet) (A B : list name) : Prop :=
  (forall x, x ∈ A -> exists l, l ∈ B /\ [x; l] ∈ iter_node_layers n) /\
  (forall l, l ∈ B -> exists x, x ∈ A /\ [x; l] ∈ iter_node_layers n).
(** The layers [roles], in this order, have the required numbers of nodes, and
    every combination of them (pairs first, then triples, ..., each in
    lexicographic order) has the required number of common nodes. *)
Definition roles_fit (n : mlnet) (A roles : list name) (sizes : list Z) (inters : list (option Z)) (ty : itype) : Prop :=
  (forall i l s, roles !! i = Some l -> sizes !! i = Some s -> has_size (fun x => x ∈ A /\ [x; l] ∈ iter_node_layers n) s) /\
  (forall j c z, role_sets roles !! j = Some c -> inters !! j = Some (Some z) ->
     exists k, has_size (fun x => x ∈ A /\ forall l, l ∈ c -> [x; l] ∈ iter_node_layers n) k /\
       (ty = Strict -> k = z) /\ (ty = LessOrEqual -> (k <= z)%Z)).
(** What [default_check_reqs] is to accept. *)
Definition acceptable (n : mlnet) (A B : list name) (sizes : list Z) (inters : list (option Z)) (ty : itype) : Prop :=
  sel_connected n A B /\ sel_full n A B /\ NoDup B /\ exists roles, roles ≡ₚ B /\ roles_fit n A roles sizes inters ty.

(** Two networks have the same node-layers and links inside a selection. *)
Definition same_induced (n m : mlnet) (A B : list name) : Prop :=
  (forall a, sel_in n A B a <-> sel_in m A B a) /\ (forall a b, sel_linked n A B a b <-> sel_linked m A B a b).

(** Two results name the same selection. *)
Definition same_sel (r r' : list name * list name) : Prop :=
  (forall x, x ∈ r.1 <-> x ∈ r'.1) /\ (forall l, l ∈ r.2 <-> l ∈ r'.2).
(** No selection occurs at two positions. *)
Definition sels_distinct (rs : list (list name * list name)) : Prop :=
  forall i j r r', rs !! i = Some r -> rs !! j = Some r' -> same_sel r r' -> i = j.

(** [chk] is a checking function for the question [P]: on every undirected
    one-aspect network [m] with the node-layers of [n] whose links inside the
    selection are those of [n] it answers (for duplicate-free lists of [rn] nodes
    and [rl] layers) whether [P] holds; [P] does not depend on the order of the
    lists and implies that the selection is connected and has no empty node or
    layer. *)
Definition decides (n : mlnet) (rn rl : Z) (chk : checker) (P : list name -> list name -> Prop) : Prop :=
  (forall m A B, reachable m -> aspects m = 1 -> directed m = false ->
     (forall a, a ∈ iter_node_layers m <-> a ∈ iter_node_layers n) -> same_induced n m A B ->
     NoDup A -> NoDup B -> Z.of_nat (length A) = rn -> Z.of_nat (length B) = rl ->
     exists b, chk m A B = Ok b /\ (b = true <-> P A B)) /\
  (forall A B A' B', A ≡ₚ A' -> B ≡ₚ B' -> P A B -> P A' B') /\
  (forall A B, P A B -> sel_connected n A B /\ sel_full n A B).
(** The selections in question. *)
Definition wanted (rn rl : Z) (P : list name -> list name -> Prop) (r : list name * list name) : Prop :=
  NoDup (r.1) /\ NoDup (r.2) /\ Z.of_nat (length (r.1)) = rn /\ Z.of_nat (length (r.2)) = rl /\ P (r.1) (r.2).
(** [rs] contains wanted selections only, each at most once ... *)
Definition only_wanted (rn rl : Z) (P : list name -> list name -> Prop) (rs : list (list name * list name)) : Prop :=
  (forall r, r ∈ rs -> wanted rn rl P r) /\ sels_distinct rs.
(** ... and all of them. *)
Definition all_wanted (rn rl : Z) (P : list name -> list name -> Prop) (rs : list (list name * list name)) : Prop :=
  forall r, wanted rn rl P r -> exists r', r' ∈ rs /\ same_sel r' r.

(** What the parameters of [dumb_enumeration] and
    [sample_multilayer_subgraphs_esu] ask for: [rn] nodes and [rl] layers with
    the property [P]. *)
Inductive question (n : mlnet) : option (list Z) -> option iarg -> option Z -> option Z -> itype -> option checker ->
    Z -> Z -> (list name -> list name -> Prop) -> Prop :=
| q_relaxed a b ty : (1 <= a)%Z -> (1 <= b)%Z ->
    question n None None (Some a) (Some b) ty None a b (fun A B => sel_connected n A B /\ sel_full n A B)
| q_strict sz il rn rl : None ∉ il -> calc_lengths sz il = Ok (rn, rl) ->
    question n (Some sz) (Some (IList il)) None None Strict None rn rl (fun A B => acceptable n A B sz il Strict)
| q_less sz il a : None ∉ il -> sz <> [] -> Forall (fun s => 1 <= s)%Z sz -> 2 ^ length sz - length sz - 1 <= length il ->
    question n (Some sz) (Some (IList il)) (Some a) None LessOrEqual None a (Z.of_nat (length sz)) (fun A B => acceptable n A B sz il LessOrEqual)
| q_partial sz il a nl ty : None ∈ il -> ty <> OtherType -> sz <> [] -> Forall (fun s => 1 <= s)%Z sz -> 2 ^ length sz - length sz - 1 <= length il ->
    question n (Some sz) (Some (IList il)) (Some a) nl ty None a (Z.of_nat (length sz)) (fun A B => acceptable n A B sz il ty)
| q_common sz z il a ty : ty <> OtherType -> (0 <= z)%Z -> 2 <= length sz -> Forall (fun s => 1 <= s)%Z sz ->
    length il = 2 ^ length sz - length sz - 1 -> last il = Some (Some z) -> (forall i, S i < length il -> il !! i = Some None) ->
    question n (Some sz) (Some (IInt z)) (Some a) None ty None a (Z.of_nat (length sz)) (fun A B => acceptable n A B sz il ty)
| q_custom sz il a b ty chk P : decides n a b chk P ->
    question n sz il (Some a) (Some b) ty (Some chk) a b P.

(** All random numbers of a run are below the probabilities given (below 1 if
    none are: [random.random()] always is). *)
Definition draws_pass (p : option (list Q)) (orc : oracle) : Prop :=
  forall iq, iq ∈ orc -> match p with None => (iq.2 < 1)%Q | Some p => forall pr, pr ∈ p -> (iq.2 < pr)%Q end.

(** The network ESU works on: [n] itself, or the copy of it, whose sets may be
    listed in any order. *)
Definition works_on (copy : bool) (n m : mlnet) : Prop :=
  if copy then exists m0, esu_copy n = Ok m0 /\ reorder m0 m else m = n.
