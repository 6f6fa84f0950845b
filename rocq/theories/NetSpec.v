(** * Specification vocabulary for MultilayerNetwork (no reference to the
    internals of the model). *)
From Verif Require Export Net.

(** [item] is an index tuple naming the link from [a] to [b] in a network with
    [asp] aspects: either the full tuple (i,j,s1,r1,...,sd,rd) or the short
    tuple (i,j,s1,...,sd) standing for (i,s1,...,sd) -> (j,s1,...,sd). *)
Inductive names_link (asp : nat) : list name -> nl -> nl -> Prop :=
| names_full item a b :
    length item = 2 * S asp -> length a = S asp -> length b = S asp ->
    (forall k, a !! k = item !! (2 * k)) -> (forall k, b !! k = item !! (2 * k + 1)) ->
    names_link asp item a b
| names_short i j ss :
    length ss = asp -> names_link asp (i :: j :: ss) (i :: ss) (j :: ss).

(** Call [o] assigns the weight [w] to the link [a] -> [b]. *)
Definition writes (asp : nat) (o : op) (a b : nl) (w : Z) : Prop :=
  match o with
  | OpSet item v => v = w /\ names_link asp item a b
  | OpNodeSet a' b' v => v = w /\ a' = a /\ b' = b /\ length a = S asp /\ length b = S asp
  | OpAddNode _ _ | OpAddLayer _ _ => False
  end.

(** Call [o] assigns [w] to the link between [x] and [y] (in an undirected
    network in either orientation). *)
Definition assigns (asp : nat) (dir : bool) (o : op) (x y : nl) (w : Z) : Prop :=
  writes asp o x y w \/ (dir = false /\ writes asp o y x w).

(** [w] is the value of the last assignment to [x] -> [y] in [h], or [noe] if
    there is none. *)
Definition last_assigned (asp : nat) (noe : Z) (dir : bool) (h : list op) (x y : nl) (w : Z) : Prop :=
  (exists h1 o h2, h = h1 ++ o :: h2 /\ assigns asp dir o x y w /\
     forall o' w', o' ∈ h2 -> ~ assigns asp dir o' x y w') \/
  (w = noe /\ forall o' w', o' ∈ h -> ~ assigns asp dir o' x y w').

(** Call [o] names [x] as node ([k = 0]) or as elementary layer of aspect [k];
    layers given to [add_node] are ignored by fully interconnected networks. *)
Definition mentions (asp : nat) (fi : bool) (o : op) (k : nat) (x : name) : Prop :=
  match o with
  | OpAddNode i lay =>
      (k = 0 /\ x = i) \/
      (fi = false /\ asp = 1 /\ k = 1 /\ lay = Some (LBare x)) \/
      (fi = false /\ 2 <= asp /\ exists ls j, lay = Some (LTup ls) /\ ls !! j = Some x /\ k = S j /\ k <= asp)
  | OpAddLayer l j => k = j /\ x = l /\ k <= asp
  | _ => exists a b w, writes asp o a b w /\ (a !! k = Some x \/ b !! k = Some x)
  end.

(** Call [o] creates the node-layer [a] in a network that is not fully
    interconnected. *)
Definition creates (asp : nat) (o : op) (a : nl) : Prop :=
  match o with
  | OpAddNode i (Some (LBare l)) => asp = 1 /\ a = [i; l]
  | OpAddNode i (Some (LTup ls)) => 2 <= asp /\ length ls = asp /\ a = i :: ls
  | OpAddNode _ None | OpAddLayer _ _ => False
  | _ => exists b w, writes asp o a b w \/ writes asp o b a w
  end.

(** [L] lists exactly the elements satisfying [P], each once. *)
Definition lists_exactly {A} (L : list A) (P : A -> Prop) : Prop :=
  NoDup L /\ forall x, x ∈ L <-> P x.

(** [w] is what [net[item]] returns for an index tuple naming the link [a] -> [b]
    (all such index tuples give the same answer: C03). *)
Definition reads (n : mlnet) (a b : nl) (w : Z) : Prop :=
  exists item, names_link (aspects n) item a b /\ getitem n (INm <$> item) = Ok (GWeight w).

(** There is a link from [a] to [b]: reading [net[a][b]] gives something other
    than [noEdge]. *)
Definition linked (n : mlnet) (a b : nl) : Prop :=
  length a = S (aspects n) /\ length b = S (aspects n) /\
  exists w, reads n a b w /\ w <> noEdge n.

(** The node-layer [b] satisfies the restriction [ds] ([None] = unrestricted). *)
Definition matches (ds : option (list (option name))) (b : nl) : Prop :=
  match ds with
  | None => True
  | Some ds => forall k x, ds !! k = Some (Some x) -> b !! k = Some x
  end.
(** [ds] has one entry per coordinate. *)
Definition dims_ok (n : mlnet) (ds : option (list (option name))) : Prop :=
  match ds with None => True | Some ds => length ds = S (aspects n) end.

(** Position [i] of the history [h] of a directed network is the removal of an
    existing link [y] -> [x] ([y <> x]) while there is no link [x] -> [y]. *)
Definition lonely_removal (asp : nat) (noe : Z) (h : list op) (x : nl) (i : nat) : Prop :=
  exists o y v, h !! i = Some o /\ writes asp o y x noe /\ y <> x /\
    last_assigned asp noe true (take i h) y x v /\ v <> noe /\
    last_assigned asp noe true (take i h) x y noe.

(** [e] is the tuple to be yielded for the link [a] -> [b]: its full index tuple
    followed by its weight. *)
Definition edge_tuple (n : mlnet) (a b : nl) (e : list name * Z) : Prop :=
  length (e.1) = 2 * S (aspects n) /\ names_link (aspects n) (e.1) a b /\ reads n a b (e.2).

(** Two networks are observably the same: same configuration, same nodes and
    elementary layers, same nodes on every layer, same links. *)
Definition same_network (n m : mlnet) : Prop :=
  aspects n = aspects m /\ directed n = directed m /\ noEdge n = noEdge m /\ fic n = fic m /\
  (forall k x, (exists s, get_layers n k = Ok s /\ x ∈ s) <-> (exists s, get_layers m k = Ok s /\ x ∈ s)) /\
  (forall l x, x ∈ iter_nodes n (Some l) <-> x ∈ iter_nodes m (Some l)) /\
  (forall a b w, length a = S (aspects n) -> length b = S (aspects n) -> reads n a b w <-> reads m a b w).

(** [x] is listed as a node ([k = 0]) or elementary layer of aspect [k]. *)
Definition has_elem (n : mlnet) (k : nat) (x : name) : Prop :=
  exists s, get_layers n k = Ok s /\ x ∈ s.
(** [l] is a layer of a network with [asp] aspects in the form used by the API
    (the bare name for one aspect, a tuple for several). *)
Definition layer_form (asp : nat) (l : layer) : Prop :=
  match l with LBare _ => asp = 1 | LTup ls => 2 <= asp /\ length ls = asp end.
