(** * Model of [MultilayerNetwork], [MultilayerNode] and [MultilayerEdges]
    (/repo/pymnet/net.py lines 24-821).  Definitions only. *)
From Verif Require Export Base.

(** Mutators return the new state together with the outcome: a Python call that
    raises may already have changed the object. *)
Notation out S A := (S * res A)%type (only parsing).
Definition obind {S A B} (m : out S A) (f : S -> A -> out S B) : out S B :=
  match m with (s, Ok a) => f s a | (s, Err e) => (s, Err e) end.
(** [for x in l: body] for a mutating body; stops at the first exception. *)
Fixpoint ofold {S A} (f : S -> A -> out S unit) (s : S) (l : list A) : out S unit :=
  match l with
  | [] => (s, Ok tt)
  | x :: l => match f s x with (s', Ok _) => ofold f s' l | (s', Err e) => (s', Err e) end
  end.

(** State of a MultilayerNetwork object: net.py 84-110 ([__init__]).
    [nett] = [_net], [rnet] = [_rnet], [totdeg] = [_totalDegree] (the latter two
    exist only if directed), [l2n] = [_layerToNodes], [n2l] = [_nodeToLayers]
    (exist only if not fully interconnected).  Absent attributes are modelled by
    empty dictionaries; no modelled function reads them in that case except
    [__eq__], where the AttributeError is explicit. *)
Record mlnet := MkNet {
  aspects : nat;
  directed : bool;
  noEdge : Z;
  fic : bool;                         (* fullyInterconnected *)
  slices : list (list name);
  nett : dict nl (dict nl Z);
  rnet : dict nl (dict nl Z);
  totdeg : dict nl Z;
  l2n : dict layer (list name);
  n2l : dict name (list layer);
}.

Definition set_slices n x := MkNet (aspects n) (directed n) (noEdge n) (fic n) x (nett n) (rnet n) (totdeg n) (l2n n) (n2l n).
Definition set_nett n x := MkNet (aspects n) (directed n) (noEdge n) (fic n) (slices n) x (rnet n) (totdeg n) (l2n n) (n2l n).
Definition set_rnet n x := MkNet (aspects n) (directed n) (noEdge n) (fic n) (slices n) (nett n) x (totdeg n) (l2n n) (n2l n).
Definition set_totdeg n x := MkNet (aspects n) (directed n) (noEdge n) (fic n) (slices n) (nett n) (rnet n) x (l2n n) (n2l n).
Definition set_l2n n x := MkNet (aspects n) (directed n) (noEdge n) (fic n) (slices n) (nett n) (rnet n) (totdeg n) x (n2l n).
Definition set_n2l n x := MkNet (aspects n) (directed n) (noEdge n) (fic n) (slices n) (nett n) (rnet n) (totdeg n) (l2n n) x.

(** net.py 84-110 [__init__] and 134-137 [_init_slices].  [aspects] is a [nat],
    so the assertion [aspects>=0] always holds. *)
Definition new_net (asp : nat) (noedge : Z) (dir : bool) (fi : bool) : mlnet :=
  MkNet asp dir noedge (if decide (asp = 0%nat) then true else fi)
        (replicate (S asp) []) [] [] [] [] [].

(** net.py 141-146 [_link_to_nodes]: [(link[0],)+link[2::2], (link[1],)+link[3::2]].
    [evens link] is [(link[0],)+link[2::2]] for a non-empty tuple. *)
Fixpoint evens {A} (l : list A) : list A :=
  match l with
  | [] => []
  | [x] => [x]
  | x :: _ :: l => x :: evens l
  end.
Definition odds {A} (l : list A) : list A := evens (tail l).
Definition link_to_nodes (link : list name) : nl * nl := (evens link, odds link).

(** net.py 148-158 [_nodes_to_link]. *)
Fixpoint interleave {A} (a b : list A) : list A :=
  match a, b with
  | x :: a, y :: b => x :: y :: interleave a b
  | _, _ => []
  end.
Definition nodes_to_link (a b : nl) : res (list name) :=
  if decide (length a = length b) then Ok (interleave a b) else Err AssertionError.

(** net.py 160-170 [_short_link_to_link]. *)
Fixpoint dup_each {A} (l : list A) : list A :=
  match l with [] => [] | x :: l => x :: x :: dup_each l end.
Definition short_link_to_link {A} (slink : list A) : list A :=
  take 2 slink ++ dup_each (drop 2 slink).

(** [self.slices[i].add(x)] for an index that exists. *)
Definition slice_add (n : mlnet) (i : nat) (x : name) : mlnet :=
  set_slices n (alter (sadd x) i (slices n)).

(** net.py 220-228 [_add_node_to_layer]. *)
Definition add_node_to_layer (n : mlnet) (node : name) (l : layer) : mlnet :=
  let n1 := set_n2l n (dset (n2l n) node (sadd l (default [] (dget (n2l n) node)))) in
  set_l2n n1 (dset (l2n n1) l (sadd node (default [] (dget (l2n n1) l)))).

(** net.py 231-244 [add_layer] with [aspect>=1].  [aspect] is a [nat]
    (simplification: Python's negative list indices are not modelled). *)
Definition add_elayer (n : mlnet) (l : name) (aspect : nat) : out mlnet unit :=
  match slices n !! aspect with
  | Some _ => (slice_add n aspect l, Ok tt)
  | None => (n, Err IndexError)
  end.

(** net.py 192-218 [add_node].  A layer given as list is converted to a tuple
    there; here both are [LTup]. *)
Definition add_node (n : mlnet) (node : name) (lay : option layer) : out mlnet unit :=
  let n0 := slice_add n 0 node in
  match lay with
  | None => (n0, Ok tt)
  | Some l =>
    if fic n then (n0, Ok tt) else
    match l with
    | LTup ls =>
      if decide (2 <= aspects n)%nat then
        obind
          (ofold (fun m p =>
                    match slices m !! S (p.1) with
                    | None => (m, Err IndexError)
                    | Some s => if lin (p.2) s then (m, Ok tt) else add_elayer m (p.2) (S (p.1))
                    end)
                 n0 (imap pair ls))
          (fun m _ => (add_node_to_layer m node l, Ok tt))
      else (n0, Err AssertionError)
    | LBare x =>
      if decide (aspects n = 1)%nat then
        match slices n0 !! 1%nat with
        | None => (n0, Err IndexError)
        | Some s =>
          obind (if lin x s then (n0, Ok tt) else add_elayer n0 x 1)
                (fun m _ => (add_node_to_layer m node l, Ok tt))
        end
      else (n0, Err AssertionError)
    end
  end.

(** net.py 231-244 [add_layer]. *)
Definition add_layer (n : mlnet) (l : name) (aspect : nat) : out mlnet unit :=
  if decide (aspect = 0)%nat then add_node n l None else add_elayer n l aspect.

(** Inner dictionary [d[a]] ([{}] if absent). *)
Definition adj (d : dict nl (dict nl Z)) (a : nl) : dict nl Z := default [] (dget d a).

(** net.py 250-264 [_get_link]. *)
Definition get_link (n : mlnet) (link : list name) : Z :=
  let '(a, b) := link_to_nodes link in
  match dget (nett n) a with
  | Some row => match dget row b with Some w => w | None => noEdge n end
  | None => noEdge n
  end.

(** [del d[a][b]]; [None] is the KeyError. *)
Definition del2 (d : dict nl (dict nl Z)) (a b : nl) : option (dict nl (dict nl Z)) :=
  match dget d a with
  | Some row => match dget row b with Some _ => Some (dset d a (ddel row b)) | None => None end
  | None => None
  end.
(** [d[a][b]=w] where [d[a]] exists. *)
Definition set2 (d : dict nl (dict nl Z)) (a b : nl) (w : Z) : dict nl (dict nl Z) :=
  dset d a (dset (adj d a) b w).
Definition in2 (d : dict nl (dict nl Z)) (a b : nl) : bool := din (adj d a) b.

(** [self._totalDegree[a]=self._totalDegree[a]-1]; KeyError if missing. *)
Definition tot_dec (n : mlnet) (a : nl) : out mlnet unit :=
  match dget (totdeg n) a with
  | Some k => (set_totdeg n (dset (totdeg n) a (k - 1)%Z), Ok tt)
  | None => (n, Err KeyError)
  end.
(** [self._totalDegree[a]=self._totalDegree.get(a,0)+k] *)
Definition tot_add (n : mlnet) (a : nl) (k : Z) : mlnet :=
  set_totdeg n (dset (totdeg n) a (default 0%Z (dget (totdeg n) a) + k)%Z).

(** net.py 272-283: the deletion branch of [_set_link], entered when the link
    exists. *)
Definition del_link (n : mlnet) (a b : nl) : out mlnet unit :=
  obind
    (if directed n then
       obind
         (if decide (a = b) then (tot_add n a (-1), Ok tt)
          else
            obind (if negb (in2 (rnet n) a b) then tot_dec n a else (n, Ok tt))
                  (fun n1 _ =>
                     if negb (in2 (rnet n1) b a) then tot_dec n1 b else (n1, Ok tt)))
         (fun n2 _ =>
            match del2 (rnet n2) b a with
            | Some r => (set_rnet n2 r, Ok tt)
            | None => (n2, Err KeyError)
            end)
     else
       match del2 (nett n) b a with
       | Some r => (set_nett n r, Ok tt)
       | None => (n, Err KeyError)
       end)
    (fun n3 _ =>
       match del2 (nett n3) a b with
       | Some r => (set_nett n3 r, Ok tt)
       | None => (n3, Err KeyError)
       end).

(** net.py 285-292: create empty rows for a node-layer that is not in [_net]. *)
Definition ensure_row (n : mlnet) (a : nl) : mlnet :=
  if din (nett n) a then n else
  let n1 := set_nett n (dset (nett n) a []) in
  if directed n then set_rnet n1 (dset (rnet n1) a []) else n1.

(** net.py 284-305: the insertion branch of [_set_link]. *)
Definition ins_link (n : mlnet) (a b : nl) (w : Z) : mlnet :=
  let n1 := ensure_row (ensure_row n a) b in
  let n4 :=
    if directed n1 then
      let n3 :=
        if bool_decide (a = b) && negb (in2 (nett n1) a b) then tot_add n1 a 1
        else
          let n2 := if negb (in2 (nett n1) a b) && negb (in2 (rnet n1) a b)
                    then tot_add n1 a 1 else n1 in
          if negb (in2 (nett n2) b a) && negb (in2 (rnet n2) b a)
          then tot_add n2 b 1 else n2 in
      set_rnet n3 (set2 (rnet n3) b a w)
    else set_nett n1 (set2 (nett n1) b a w) in
  set_nett n4 (set2 (nett n4) a b w).

(** net.py 266-305 [_set_link]. *)
Definition set_link (n : mlnet) (link : list name) (w : Z) : out mlnet unit :=
  let '(a, b) := link_to_nodes link in
  if decide (w = noEdge n) then
    match dget (nett n) a with
    | Some row => if din row b then del_link n a b else (n, Ok tt)
    | None => (n, Ok tt)
    end
  else (ins_link n a b w, Ok tt).

(** net.py 517-528: resolution of the index tuple in [__setitem__]. *)
Definition setitem_link (n : mlnet) (item : list name) : res (list name) :=
  let d := S (aspects n) in
  if decide (length item = 2 * d)%nat then Ok item
  else if decide (length item = d + 1)%nat then Ok (short_link_to_link item)
  else Err KeyError.

(** The layer argument [link[2]] / [n1[1:]] passed to [add_node] in net.py 535-541. *)
Definition layer_of (n : mlnet) (a : nl) : layer :=
  match a with
  | [_; l] => if decide (aspects n = 1)%nat then LBare l else LTup (tail a)
  | _ => LTup (tail a)
  end.
Definition node_of (a : nl) : name := default (NInt 0) (head a).

(** net.py 517-547 [__setitem__].  [node_of]'s default is never used: links
    have at least two entries. *)
Definition setitem (n : mlnet) (item : list name) (w : Z) : out mlnet unit :=
  match setitem_link n item with
  | Err e => (n, Err e)
  | Ok link =>
    let '(a, b) := link_to_nodes link in
    obind
      (if fic n then
         ofold (fun m p => add_layer m (p.2) (p.1 / 2)) n (imap pair (take 2 link))
       else
         obind (add_node n (node_of a) (Some (layer_of n a)))
               (fun m _ => add_node m (node_of b) (Some (layer_of m b))))
      (fun n1 _ =>
         obind
           (ofold (fun m p => add_layer m (p.2) ((p.1 + 2) / 2)) n1 (imap pair (drop 2 link)))
           (fun n2 _ => set_link n2 link w))
  end.

(** Index entries of [__getitem__]: a name or a full slice [:]. *)
Inductive idx := INm (x : name) | IColon.
Global Instance idx_eq_dec : EqDecision idx.
Proof. solve_decision. Defined.

(** Result of [net[item]]: a MultilayerNode handle (node-layer and the optional
    [layers] restriction), or a link weight. *)
Inductive got := GNode (a : nl) (dims : option (list (option name))) | GWeight (w : Z).

Definition idx_name (i : idx) : option name := match i with INm x => Some x | IColon => None end.

(** net.py 496-501: the loop computing [layers] and [colons]; note that it
    appends [item[2*i]], not [item[2*i+1]]. *)
Fixpoint slice_dims (item : list idx) : list (option name) :=
  match item with
  | x :: y :: item => (match y with IColon => None | INm _ => idx_name x end) :: slice_dims item
  | _ => []
  end.

(** net.py 493-505: [net[item]] for a tuple with [2*d] entries.
    Simplification: a colon in the position of the first node-layer makes every
    use of the Python object raise TypeError (slices are unhashable); the model
    raises it immediately. *)
Definition getitem_full (n : mlnet) (item : list idx) : res got :=
  match mapM idx_name (evens item) with
  | None => Err TypeError
  | Some a =>
    if decide (IColon ∈ odds item)
    then Ok (GNode a (Some (slice_dims item)))
    else match mapM idx_name item with
         | Some link => Ok (GWeight (get_link n link))
         | None => Err TypeError
         end
  end.

(** net.py 454-515 [__getitem__]. *)
Definition getitem (n : mlnet) (item : list idx) : res got :=
  let d := S (aspects n) in
  if decide (length item = d)%nat then
    match mapM idx_name item with Some a => Ok (GNode a None) | None => Err TypeError end
  else if decide (length item = 2 * d)%nat then getitem_full n item
  else if decide (length item = d + 1)%nat then
    if decide (IColon ∈ drop 2 item) then Err GenericException
    else getitem_full n (short_link_to_link item)
  else Err KeyError.

(** [net[a][b]] for two complete node-layer tuples: net.py 672-679
    ([MultilayerNode.__getitem__]) followed by [__getitem__]. *)
Definition weight (n : mlnet) (a b : nl) : Z := get_link n (interleave a b).

(** net.py 681-684 [MultilayerNode.__setitem__]: [net[a][b]=w], i.e. [net[a]]
    followed by item assignment on the result. *)
Definition node_setitem (n : mlnet) (a b : nl) (w : Z) : out mlnet unit :=
  match getitem n (INm <$> a) with
  | Ok (GNode a' _) =>
    match nodes_to_link a' b with
    | Ok link => setitem n link w
    | Err e => (n, Err e)
    end
  | Ok (GWeight _) => (n, Err TypeError)
  | Err e => (n, Err e)
  end.

(** net.py 430/441: the [all(map(...,range(len(dims))))] filter.  [dims] and the
    neighbour always have [aspects+1] entries. *)
Fixpoint dims_match (dims : list (option name)) (b : nl) : bool :=
  match dims, b with
  | [], _ => true
  | None :: dims, _ :: b => dims_match dims b
  | Some x :: dims, y :: b => bool_decide (y = x) && dims_match dims b
  | _ :: _, [] => false
  end.
Definition dims_filter (dims : option (list (option name))) (l : list nl) : list nl :=
  match dims with None => l | Some ds => filter (fun b => dims_match ds b = true) l end.

(** net.py 411-431 [_iter_neighbors_out]. *)
Definition iter_out (n : mlnet) (a : nl) (dims : option (list (option name))) : list nl :=
  dims_filter dims (dkeys (adj (nett n) a)).
(** net.py 433-442 [_iter_neighbors_in_dir]. *)
Definition iter_in_dir (n : mlnet) (a : nl) (dims : option (list (option name))) : list nl :=
  dims_filter dims (dkeys (adj (rnet n) a)).
(** net.py 400-404 [_iter_neighbors_in]. *)
Definition iter_in (n : mlnet) (a : nl) dims : list nl :=
  if directed n then iter_in_dir n a dims else iter_out n a dims.
(** net.py 444-452 [_iter_neighbors_total_dir]. *)
Definition iter_total_dir (n : mlnet) (a : nl) dims : list nl :=
  let o := iter_out n a dims in
  o ++ filter (fun b => lin b o = false) (iter_in n a dims).
(** net.py 405-409 [_iter_neighbors_total]; also 395-399 [_iter_neighbors]. *)
Definition iter_total (n : mlnet) (a : nl) dims : list nl :=
  if directed n then iter_total_dir n a dims else iter_out n a dims.

(** net.py 327-340 [_get_degree_out]. *)
Definition degree_out (n : mlnet) (a : nl) (dims : option (list (option name))) : Z :=
  match dims with
  | None => match dget (nett n) a with Some row => Z.of_nat (length row) | None => 0 end
  | Some _ => Z.of_nat (length (iter_out n a dims))
  end.
(** net.py 351-361 [_get_degree_in_dir] and 314-318 [_get_degree_in]. *)
Definition degree_in (n : mlnet) (a : nl) dims : Z :=
  if directed n then
    match dims with
    | None => match dget (rnet n) a with Some row => Z.of_nat (length row) | None => 0 end
    | Some _ => Z.of_nat (length (iter_in n a dims))
    end
  else degree_out n a dims.
(** net.py 342-349 [_get_degree_total_dir], 308-312 [_get_degree] and 320-324
    [_get_degree_total]: [deg()] and [deg_total()]. *)
Definition degree (n : mlnet) (a : nl) dims : Z :=
  if directed n then
    match dims with
    | None => default 0%Z (dget (totdeg n) a)
    | Some _ => Z.of_nat (length (iter_total n a dims))
    end
  else degree_out n a dims.

(** net.py 386-388 [_get_strength_out]. *)
Definition strength_out (n : mlnet) (a : nl) dims : Z :=
  zsumf (fun b => weight n a b) (iter_out n a dims).
(** net.py 382-384 [_get_strength_in_dir] and 370-374 [_get_strength_in]. *)
Definition strength_in (n : mlnet) (a : nl) dims : Z :=
  if directed n then zsumf (fun b => weight n b a) (iter_in n a dims)
  else strength_out n a dims.
(** net.py 390-392 [_get_strength_total_dir], 365-369 [_get_strength], 375-379
    [_get_strength_total]: [str()] and [str_total()]. *)
Definition strength (n : mlnet) (a : nl) dims : Z :=
  if directed n then (strength_in n a dims + strength_out n a dims)%Z
  else strength_out n a dims.

(** net.py 689-751: [deg( *layers)], [str( *layers)], ... on a node handle:
    explicit layers override the handle's restriction; a wrong number of layers
    is an AssertionError. *)
Definition node_dims (n : mlnet) (own : option (list (option name))) (layers : list (option name))
  : res (option (list (option name))) :=
  if decide (length layers = 0%nat) then Ok own
  else if decide (length layers = S (aspects n)) then Ok (Some layers)
  else Err AssertionError.

(** net.py 172-173 [__len__]. *)
Definition net_nodes (n : mlnet) : list name := default [] (slices n !! 0%nat).
Definition net_len (n : mlnet) : nat := length (net_nodes n).
(** net.py 551-554 [get_layers]. *)
Definition get_layers (n : mlnet) (aspect : nat) : res (list name) :=
  match slices n !! aspect with Some s => Ok s | None => Err IndexError end.

(** net.py 592-610 [iter_layers] (aspect=None). *)
Definition iter_layers (n : mlnet) : list layer :=
  if decide (1 < aspects n)%nat then LTup <$> cart (drop 1 (slices n))
  else if decide (aspects n = 1)%nat then LBare <$> default [] (slices n !! 1%nat)
  else [].
(** net.py 556-567 [iter_nodes]. *)
Definition iter_nodes (n : mlnet) (lay : option layer) : list name :=
  match lay with
  | None => net_nodes n
  | Some l => if fic n then net_nodes n else default [] (dget (l2n n) l)
  end.
(** [(node,layer)] resp. [(node,)+layer]. *)
Definition nl_of (node : name) (l : layer) : nl :=
  match l with LBare x => [node; x] | LTup ls => node :: ls end.
(** net.py 575-589 [iter_node_layers]. *)
Definition iter_node_layers (n : mlnet) : list nl :=
  if fic n then cart (slices n)
  else iter_layers n ≫= (fun l => (fun node => nl_of node l) <$> iter_nodes n (Some l)).

(** net.py 785-804 [MultilayerEdges.__iter__]: links (as index tuples) with weight. *)
Definition edges_dir (n : mlnet) : list (list name * Z) :=
  cart (slices n) ≫= (fun a => (fun b => (interleave a b, weight n a b)) <$> iter_out n a None).
Fixpoint edges_und (n : mlnet) (todo iterated : list nl) : list (list name * Z) :=
  match todo with
  | [] => []
  | a :: todo =>
    ((fun b => (interleave a b, weight n a b))
       <$> filter (fun b => b ∉ iterated) (iter_total n a None))
    ++ edges_und n todo (a :: iterated)
  end.
Definition edges (n : mlnet) : list (list name * Z) :=
  if directed n then edges_dir n else edges_und n (cart (slices n)) [].

(** net.py 806-817 [MultilayerEdges.__len__]; [int(deg/2)] is exact integer
    division here (Python goes through a float). *)
Definition edges_len (n : mlnet) : Z :=
  if directed n then zsumf (fun a => degree_out n a None) (iter_node_layers n)
  else (zsumf (fun a => degree n a None + (if decide (weight n a a = noEdge n) then 0 else 1))
              (iter_node_layers n) / 2)%Z.

(** Set and dict-of-sets equality. *)
Definition set_eqb {A} `{EqDecision A} (s1 s2 : list A) : bool :=
  forallb (fun x => lin x s2) s1 && forallb (fun x => lin x s1) s2.
Definition n2l_eqb (d1 d2 : dict name (list layer)) : bool :=
  set_eqb (dkeys d1) (dkeys d2) &&
  forallb (fun k => set_eqb (default [] (dget d1 k)) (default [] (dget d2 k))) (dkeys d1).
Fixpoint slices_eqb (s1 s2 : list (list name)) : bool :=
  match s1, s2 with
  | [], [] => true
  | x :: s1, y :: s2 => set_eqb x y && slices_eqb s1 s2
  | _, _ => false
  end.
(** net.py 175-188 [__eq__] for two objects of class MultilayerNetwork.  If
    [self] is not fully interconnected and [other] is, [other._nodeToLayers]
    raises AttributeError. *)
Definition net_eq (n m : mlnet) : res bool :=
  if negb (fic n) && fic m then Err AttributeError else
  if negb (fic n) && negb (n2l_eqb (n2l n) (n2l m)) then Ok false else
  Ok (bool_decide (directed n = directed m) && bool_decide (aspects n = aspects m)
      && bool_decide (fic n = fic m) && bool_decide (noEdge n = noEdge m)
      && slices_eqb (slices n) (slices m) && bool_decide (edges_len n = edges_len m)
      && forallb (fun e => bool_decide (get_link n (e.1) = get_link m (e.1))) (edges n)).

(** ** Histories of public mutating calls *)
Inductive op :=
| OpSet (item : list name) (w : Z)          (* net[item]=w *)
| OpNodeSet (a b : nl) (w : Z)              (* net[a][b]=w *)
| OpAddNode (node : name) (l : option layer)
| OpAddLayer (l : name) (aspect : nat).

Definition step (n : mlnet) (o : op) : out mlnet unit :=
  match o with
  | OpSet item w => setitem n item w
  | OpNodeSet a b w => node_setitem n a b w
  | OpAddNode x l => add_node n x l
  | OpAddLayer l k => add_layer n l k
  end.

(** Two states that differ only in the iteration order of their sets. *)
Definition reorder (n m : mlnet) : Prop :=
  aspects n = aspects m /\ directed n = directed m /\ noEdge n = noEdge m /\ fic n = fic m /\
  nett n = nett m /\ rnet n = rnet m /\ totdeg n = totdeg m /\
  Forall2 Permutation (slices n) (slices m) /\
  Forall2 (fun p q => p.1 = q.1 /\ Permutation (p.2) (q.2)) (l2n n) (l2n m) /\
  Forall2 (fun p q => p.1 = q.1 /\ Permutation (p.2) (q.2)) (n2l n) (n2l m).

(** [hist asp noedge dir fi h n]: [n] is a state of
    [MultilayerNetwork(asp,noedge,dir,fi)] after the calls [h] (oldest first),
    where every call may have raised (its partial effects are kept) and where
    the iteration order of the sets may change at any time. *)
Inductive hist (asp : nat) (noedge : Z) (dir fi : bool) : list op -> mlnet -> Prop :=
| hist_init : hist asp noedge dir fi [] (new_net asp noedge dir fi)
| hist_op h n o : hist asp noedge dir fi h n -> hist asp noedge dir fi (h ++ [o]) (step n o).1
| hist_reorder h n m : hist asp noedge dir fi h n -> reorder n m -> hist asp noedge dir fi h m.

Definition reachable (n : mlnet) : Prop :=
  exists asp noedge dir fi h, hist asp noedge dir fi h n.

(** Executable version: run a history on a fresh network. *)
Definition run (n : mlnet) (h : list op) : mlnet := fold_left (fun m o => (step m o).1) h n.
