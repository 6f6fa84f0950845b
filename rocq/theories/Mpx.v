(** * Model of [MultiplexNetwork] (net.py 824-1292), definitions only *)
From Verif Require Export Supra.

(** A coupling after the normalisation in net.py 938-956: ("categorical",w),
    ("ordinal",w), ("none",) or ("none",w), or (network,).  Simplification: a
    coupling network is a value (in Python it is a shared mutable object). *)
Inductive coupling := CCat (w : Z) | COrd (w : Z) | CNone (w : option Z) | CNet (m : mlnet).

(** State of a MultiplexNetwork: net.py 930-972.  [mA] is [A] = [intranets] with
    the intra-layer networks of class MultilayerNetworkWithParent; [mn2l] is
    [_nodeToLayers] (exists only if not fully interconnected). *)
Record mpx := MkMpx {
  mcoup : list coupling;
  mdir : bool;
  mnoe : Z;
  mfic : bool;
  mslices : list (list name);
  mA : dict layer mlnet;
  mn2l : dict name (list layer);
}.
Definition maspects (p : mpx) : nat := length (mcoup p).
Definition pset_slices p x := MkMpx (mcoup p) (mdir p) (mnoe p) (mfic p) x (mA p) (mn2l p).
Definition pset_A p x := MkMpx (mcoup p) (mdir p) (mnoe p) (mfic p) (mslices p) x (mn2l p).
Definition pset_n2l p x := MkMpx (mcoup p) (mdir p) (mnoe p) (mfic p) (mslices p) (mA p) x.

(** net.py 930-972 [__init__] for a list of (normalised) couplings. *)
Definition new_mpx (cs : list coupling) (dir : bool) (noe : Z) (fi : bool) : mpx :=
  MkMpx cs dir noe fi (replicate (S (length cs)) []) [] [].

Definition mnodes (p : mpx) : list name := default [] (mslices p !! 0%nat).

(** [self.A[l]].  In a fully interconnected network the node set of every
    intra-layer network IS the parent's node set (net.py 861-864: the same
    Python object), hence it is read from the parent. *)
Definition pA (p : mpx) (l : layer) : option mlnet :=
  match dget (mA p) l with
  | None => None
  | Some m => Some (if mfic p then set_slices m [mnodes p] else m)
  end.
(** Store the state of the intra-layer network [l] after a call on it. *)
Definition put_A (p : mpx) (l : layer) (m : mlnet) : mpx :=
  let p1 := pset_A p (dset (mA p) l m) in
  if mfic p then pset_slices p1 (alter (fun _ => net_nodes m) 0%nat (mslices p1)) else p1.

Definition pslice_add (p : mpx) (i : nat) (x : name) : mpx :=
  pset_slices p (alter (sadd x) i (mslices p)).
Definition n2l_add (p : mpx) (x : name) (l : layer) : mpx :=
  pset_n2l p (dset (mn2l p) x (sadd l (default [] (dget (mn2l p) x)))).

(** net.py 848-856 [_add_empty_network]: noEdge of the new network is the
    default 0, whatever the parent's noEdge is. *)
Definition empty_intra (p : mpx) : mlnet := new_net 0 0 (mdir p) true.
Definition add_empty (p : mpx) (l : layer) : mpx := pset_A p (dset (mA p) l (empty_intra p)).

(** net.py 987-1012 [add_layer] of MultiplexNetwork.  [self.add_node(layer)] with
    no layer argument is [slices[0].add]. *)
Definition padd_layer (p : mpx) (l : name) (aspect : nat) : out mpx unit :=
  match mslices p !! aspect with
  | None => (p, Err IndexError)
  | Some s =>
    if lin l s then (p, Ok tt)
    else if decide (aspect = 0)%nat then (pslice_add p 0 l, Ok tt)
    else
      let p1 :=
        if decide (1 < maspects p)%nat then
          fold_left (fun q t => add_empty q (LTup t))
                    (cart (alter (fun _ => [l]) (aspect - 1)%nat (drop 1 (mslices p)))) p
        else add_empty p (LBare l) in
      (pslice_add p1 aspect l, Ok tt)
  end.

(** net.py 871-881: [add_node] of an intra-layer network; [rec] is the parent's
    [add_node]. *)
Definition intra_add_node (rec : mpx -> name -> option layer -> out mpx unit)
  (p : mpx) (l : layer) (x : name) : out mpx unit :=
  match pA p l with
  | None => (p, Err KeyError)
  | Some m =>
    let p1 := put_A p l (slice_add m 0 x) in
    if mfic p then rec p1 x None
    else obind (rec p1 x (Some l)) (fun p2 _ => (n2l_add p2 x l, Ok tt))
  end.
(** net.py 1284-1292 [_add_node_to_layer]. *)
Definition padd_node_to_layer (rec : mpx -> name -> option layer -> out mpx unit)
  (p : mpx) (x : name) (l : layer) : out mpx unit :=
  let p1 := n2l_add p x l in
  match pA p1 l with
  | None => (p1, Err KeyError)
  | Some m => if lin x (net_nodes m) then (p1, Ok tt) else intra_add_node rec p1 l x
  end.
(** net.py 192-218 [add_node] (inherited) with [self.add_layer] and
    [self._add_node_to_layer] being the overridden methods.  The methods call
    each other; [fuel] bounds the recursion depth (2 suffices, see
    [padd_node_spec]). *)
Definition padd_node_body (rec : mpx -> name -> option layer -> out mpx unit)
  (p : mpx) (x : name) (lay : option layer) : out mpx unit :=
  let p0 := pslice_add p 0 x in
  match lay with
  | None => (p0, Ok tt)
  | Some l =>
    if mfic p then (p0, Ok tt) else
    match l with
    | LTup ls =>
      if decide (2 <= maspects p)%nat then
        obind
          (ofold (fun q kx =>
                    match mslices q !! S (kx.1) with
                    | None => (q, Err IndexError)
                    | Some s => if lin (kx.2) s then (q, Ok tt) else padd_layer q (kx.2) (S (kx.1))
                    end)
                 p0 (imap pair ls))
          (fun q _ => padd_node_to_layer rec q x l)
      else (p0, Err AssertionError)
    | LBare y =>
      if decide (maspects p = 1)%nat then
        match mslices p0 !! 1%nat with
        | None => (p0, Err IndexError)
        | Some s =>
          obind (if lin y s then (p0, Ok tt) else padd_layer p0 y 1)
                (fun q _ => padd_node_to_layer rec q x l)
        end
      else (p0, Err AssertionError)
    end
  end.
Fixpoint padd_node_fuel (fuel : nat) : mpx -> name -> option layer -> out mpx unit :=
  match fuel with
  | O => fun p _ _ => (p, Err OutOfFuel)
  | S fuel => padd_node_body (padd_node_fuel fuel)
  end.
Definition padd_node : mpx -> name -> option layer -> out mpx unit := padd_node_fuel 2.

(** [net.A[l].add_node(x)]; KeyError if there is no such layer. *)
Definition A_add_node (p : mpx) (l : layer) (x : name) : out mpx unit := intra_add_node padd_node p l x.

(** net.py 517-547 [__setitem__] of an intra-layer network (0 aspects): both
    nodes are added with the overridden [add_node], then [_set_link]. *)
Definition A_setitem (p : mpx) (l : layer) (item : list name) (w : Z) : out mpx unit :=
  match pA p l with
  | None => (p, Err KeyError)
  | Some _ =>
    if decide (length item = 2)%nat then
      obind (ofold (fun q x => A_add_node q l x) p (take 2 item))
            (fun q _ =>
               match pA q l with
               | None => (q, Err KeyError)
               | Some m => let '(m', r) := set_link m item w in (put_A q l m', r)
               end)
    else (p, Err KeyError)
  end.

(** The key of [A] for a layer given as tuple: net.py 979-985, 1015-1021. *)
Definition lkey (asp : nat) (ls : list name) : layer :=
  if decide (asp = 1)%nat
  then match ls with x :: _ => LBare x | [] => LTup [] end
  else LTup ls.

(** net.py 974-977 [_get_edge_inter_aspects] for a link of [2(aspects+1)] entries. *)
Definition inter_aspects (a b : nl) : list nat :=
  fst <$> filter (fun q => q.2.1 <> q.2.2) (imap pair (zip a b)).

(** net.py 1057-1067 [_set_link]. *)
Definition pset_link (p : mpx) (link : list name) (w : Z) : out mpx unit :=
  let '(a, b) := link_to_nodes link in
  match inter_aspects a b with
  | [0%nat] => A_setitem p (lkey (maspects p) (tail a)) [node_of a; node_of b] w
  | _ => (p, Err KeyError)
  end.

(** net.py 517-547 [__setitem__], inherited. *)
Definition psetitem_link (p : mpx) (item : list name) : res (list name) :=
  let d := S (maspects p) in
  if decide (length item = 2 * d)%nat then Ok item
  else if decide (length item = d + 1)%nat then Ok (short_link_to_link item)
  else Err KeyError.
Definition player_of (asp : nat) (a : nl) : layer :=
  match a with
  | [_; l] => if decide (asp = 1)%nat then LBare l else LTup (tail a)
  | _ => LTup (tail a)
  end.
Definition psetitem (p : mpx) (item : list name) (w : Z) : out mpx unit :=
  match psetitem_link p item with
  | Err e => (p, Err e)
  | Ok link =>
    let '(a, b) := link_to_nodes link in
    obind
      (if mfic p then
         ofold (fun q kx => padd_layer q (kx.2) (kx.1 / 2)) p (imap pair (take 2 link))
       else
         obind (padd_node p (node_of a) (Some (player_of (maspects p) a)))
               (fun q _ => padd_node q (node_of b) (Some (player_of (maspects q) b))))
      (fun p1 _ =>
         obind
           (ofold (fun q kx => padd_layer q (kx.2) ((kx.1 + 2) / 2)) p1 (imap pair (drop 2 link)))
           (fun p2 _ => pset_link p2 link w))
  end.
(** net.py 681-684: [net[a][b]=w]; [net[a]] is a node handle iff [a] has
    [aspects+1] entries (KeyError or another failure otherwise). *)
Definition pnode_setitem (p : mpx) (a b : nl) (w : Z) : out mpx unit :=
  if decide (length a = S (maspects p)) then
    if decide (length a = length b) then psetitem p (interleave a b) w else (p, Err AssertionError)
  else (p, Err KeyError).

(** [x + 1 == y or x == y + 1] on layer names (net.py 1043): adding 1 to a
    string raises TypeError. *)
Definition adjacent (x y : name) : res bool :=
  match x, y with
  | NInt a, NInt b => Ok (bool_decide (a + 1 = b)%Z || bool_decide (a = b + 1)%Z)
  | _, _ => Err TypeError
  end.

(** net.py 1024-1055 [_get_link]. *)
Definition pget_pair (p : mpx) (a b : nl) : res Z :=
  match inter_aspects a b with
  | [d] =>
    if decide (d = 0)%nat then
      match pA p (lkey (maspects p) (tail a)) with
      | Some m => Ok (get_link m [node_of a; node_of b])
      | None => Ok (mnoe p)
      end
    else if lin (node_of a) (mnodes p) then
      let? both :=
        if mfic p then Ok true
        else
          match pA p (lkey (maspects p) (tail a)) with
          | None => Err KeyError
          | Some m1 =>
            if lin (node_of a) (net_nodes m1) then
              match pA p (lkey (maspects p) (tail b)) with
              | None => Err KeyError
              | Some m2 => Ok (lin (node_of a) (net_nodes m2))
              end
            else Ok false
          end in
      if both then
        match mcoup p !! (d - 1)%nat, a !! d, b !! d with
        | Some (CCat w), _, _ => Ok w
        | Some (COrd w), Some x, Some y => let? adj := adjacent x y in Ok (if adj then w else mnoe p)
        | Some (CNet m), Some x, Some y => Ok (get_link m [x; y])
        | Some (CNone _), _, _ => Err GenericException
        | _, _, _ => Err IndexError
        end
      else Ok (mnoe p)
    else Ok (mnoe p)
  | _ => Ok (mnoe p)
  end.
Definition pget_link (p : mpx) (link : list name) : res Z :=
  let '(a, b) := link_to_nodes link in pget_pair p a b.
(** net.py 454-515 [__getitem__] for index tuples of names that denote a link. *)
Definition pgetitem (p : mpx) (item : list name) : res Z :=
  let? link := psetitem_link p item in pget_link p link.

(** [net.A[l][item]]: net.py 454-515 on the intra-layer network; KeyError if there
    is no layer [l] or [item] is not a pair. *)
Definition agetitem (p : mpx) (l : layer) (item : list name) : res Z :=
  match pA p l with
  | None => Err KeyError
  | Some m => if decide (length item = 2)%nat then Ok (get_link m item) else Err KeyError
  end.
(** net.py 551-554 [get_layers] (inherited). *)
Definition mget_layers (p : mpx) (aspect : nat) : res (list name) :=
  match mslices p !! aspect with Some s => Ok s | None => Err IndexError end.

(** ** Degrees, strengths, iteration *)
Inductive direction := DTot | DIn | DOut.
Definition dir_degree (d : direction) : mlnet -> nl -> option (list (option name)) -> Z :=
  match d with DTot => degree | DIn => degree_in | DOut => degree_out end.
Definition dir_strength (d : direction) : mlnet -> nl -> option (list (option name)) -> Z :=
  match d with DTot => strength | DIn => strength_in | DOut => strength_out end.
Definition dir_iter (d : direction) : mlnet -> nl -> option (list (option name)) -> list nl :=
  match d with DTot => iter_total | DIn => iter_in | DOut => iter_out end.

(** [supernode[aspect]+1], [supernode[aspect]-1]. *)
Definition shift (x : name) (k : Z) : res name :=
  match x with NInt z => Ok (NInt (z + k)) | NStr _ => Err TypeError end.
(** [supernode[:aspect]+(x,)+supernode[aspect+1:]] *)
Definition replace_at (a : nl) (aspect : nat) (x : name) : nl := <[aspect := x]> a.

Definition zb (b : bool) : Z := if b then 1%Z else 0%Z.

(** net.py 1070-1102 [_get_dim_degree]. *)
Definition dim_degree (p : mpx) (a : nl) (aspect : nat) (dr : direction) : res Z :=
  match mcoup p !! (aspect - 1)%nat, a !! aspect, mslices p !! aspect with
  | Some (CCat _), Some _, Some s =>
    if mfic p then Ok (Z.of_nat (length s) - 1)%Z
    else
      match dget (mn2l p) (node_of a) with
      | None => Err KeyError
      | Some ls =>
        if lin (player_of (maspects p) a) ls then
          if decide (maspects p = 1)%nat then Ok (Z.of_nat (length ls) - 1)%Z else Err TypeError
        else Ok 0%Z
      end
  | Some (COrd _), Some x, Some s =>
    let? up := shift x 1 in
    let? down := shift x (-1) in
    if mfic p then Ok (zb (lin up s) + zb (lin down s))%Z
    else
      match dget (mn2l p) (node_of a) with
      | None => Err KeyError
      | Some ls => Ok (zb (lin (LTup (replace_at a aspect up)) ls)
                       + zb (lin (LTup (replace_at a aspect down)) ls))%Z
      end
  | Some (CNet m), Some x, Some _ => Ok (dir_degree dr m [x] None)
  | Some (CNone _), _, _ => Ok 0%Z
  | _, _, _ => Err IndexError
  end.
(** net.py 1105-1110 [_get_dim_strength]: [couplings[aspect-1][1]] does not
    exist for ("none",) and (network,). *)
Definition dim_strength (p : mpx) (a : nl) (aspect : nat) (dr : direction) : res Z :=
  match mcoup p !! (aspect - 1)%nat with
  | Some (CCat w) | Some (COrd w) | Some (CNone (Some w)) =>
    let? k := dim_degree p a aspect dr in Ok (k * w)%Z
  | _ => Err IndexError
  end.
(** net.py 1113-1143 [_iter_dim]. *)
Definition iter_dim (p : mpx) (a : nl) (aspect : nat) : res (list nl) :=
  match mcoup p !! (aspect - 1)%nat, a !! aspect, mslices p !! aspect with
  | Some (CCat _), Some x, Some s =>
    if mfic p then Ok (replace_at a aspect <$> filter (fun y => y <> x) s)
    else
      match pA p (lkey (maspects p) (tail a)) with
      | None => Err KeyError
      | Some m =>
        if lin (node_of a) (net_nodes m) then
          match dget (mn2l p) (node_of a) with
          | None => Err KeyError
          | Some ls => Ok ((fun l => nl_of (node_of a) l) <$> filter (fun l => l <> player_of (maspects p) a) ls)
          end
        else Ok []
      end
  | Some (COrd _), Some x, Some s =>
    let? up := shift x 1 in
    let? down := shift x (-1) in
    if mfic p then
      Ok ((if lin up s then [replace_at a aspect up] else [])
          ++ (if lin down s then [replace_at a aspect down] else []))
    else
      match dget (mn2l p) (node_of a) with
      | None => Err KeyError
      | Some ls =>
        Ok ((if lin (LTup (tail (replace_at a aspect up))) ls then [replace_at a aspect up] else [])
            ++ (if lin (LTup (tail (replace_at a aspect down))) ls then [replace_at a aspect down] else []))
      end
  | Some (CNone _), _, _ => Ok []
  | Some (CNet _), _, _ => Err TypeError
  | _, _, _ => Err IndexError
  end.
(** net.py 1145-1157 [_select_dimensions]. *)
Definition select_dims (p : mpx) (a : nl) (dims : option (list (option name))) : list nat :=
  match dims with
  | None => seq 0 (S (maspects p))
  | Some ds =>
    if dims_match ds a then fst <$> filter (fun q : nat * option name => q.2 = None) (imap pair ds) else []
  end.

(** net.py 1159-1192: the degree functions. *)
Definition pdegree (p : mpx) (dr : direction) (a : nl) (dims : option (list (option name))) : res Z :=
  let? ks := rmapM (fun d =>
      if decide (d = 0)%nat then
        match pA p (lkey (maspects p) (tail a)) with
        | None => Err KeyError
        | Some m => Ok (dir_degree dr m [node_of a] None)
        end
      else dim_degree p a d dr) (select_dims p a dims) in
  Ok (zsum ks).
(** net.py 1195-1229: the strength functions. *)
Definition pstrength (p : mpx) (dr : direction) (a : nl) (dims : option (list (option name))) : res Z :=
  let? ks := rmapM (fun d =>
      if decide (d = 0)%nat then
        match pA p (lkey (maspects p) (tail a)) with
        | None => Err KeyError
        | Some m => Ok (dir_strength dr m [node_of a] None)
        end
      else dim_strength p a d dr) (select_dims p a dims) in
  Ok (zsum ks).
(** net.py 1233-1261: the neighbour iterators.  An exception raised while the
    generator runs is modelled as failure of the whole iteration. *)
Definition piter (p : mpx) (dr : direction) (a : nl) (dims : option (list (option name))) : res (list nl) :=
  let? ls := rmapM (fun d =>
      if decide (d = 0)%nat then
        match pA p (lkey (maspects p) (tail a)) with
        | None => Err KeyError
        | Some m => Ok ((fun b => node_of b :: tail a) <$> dir_iter dr m [node_of a] None)
        end
      else iter_dim p a d) (select_dims p a dims) in
  Ok (concat ls).
(** The public [deg()/deg_total()], [deg_in()], [deg_out()] etc.: dispatch in
    net.py 308-324, 365-409 (undirected networks always use the "out" version). *)
Definition pdir (p : mpx) (dr : direction) : direction := if mdir p then dr else DOut.
Definition mp_degree p dr a dims := pdegree p (pdir p dr) a dims.
Definition mp_strength p dr a dims := pstrength p (pdir p dr) a dims.
Definition mp_iter p dr a dims := piter p (pdir p dr) a dims.

(** net.py 592-610 [iter_layers] (inherited). *)
Definition mlayers (p : mpx) : list layer :=
  if decide (1 < maspects p)%nat then LTup <$> cart (drop 1 (mslices p))
  else if decide (maspects p = 1)%nat then LBare <$> default [] (mslices p !! 1%nat)
  else [].
(** net.py 1272-1282 [iter_nodes]; [self.A[layer]] raises KeyError. *)
Definition miter_nodes (p : mpx) (lay : option layer) : res (list name) :=
  match lay with
  | None => Ok (mnodes p)
  | Some l => if mfic p then Ok (mnodes p)
              else match pA p l with Some m => Ok (net_nodes m) | None => Err KeyError end
  end.
(** net.py 575-589 [iter_node_layers] (inherited). *)
Definition miter_node_layers (p : mpx) : res (list nl) :=
  if mfic p then Ok (cart (mslices p))
  else let? ls := rmapM (fun l => let? ns := miter_nodes p (Some l) in Ok ((fun x => nl_of x l) <$> ns)) (mlayers p) in
       Ok (concat ls).

(** ** Histories *)
Inductive mop :=
| MSet (item : list name) (w : Z)                 (* net[item]=w *)
| MNodeSet (a b : nl) (w : Z)                     (* net[a][b]=w *)
| MASet (l : layer) (item : list name) (w : Z)    (* net.A[l][item]=w *)
| MAddNode (x : name) (l : option layer)          (* net.add_node(x,layer=l) *)
| MAddLayer (l : name) (aspect : nat)             (* net.add_layer(l,aspect) *)
| MAAddNode (l : layer) (x : name).               (* net.A[l].add_node(x) *)

Definition mstep (p : mpx) (o : mop) : out mpx unit :=
  match o with
  | MSet item w => psetitem p item w
  | MNodeSet a b w => pnode_setitem p a b w
  | MASet l item w => A_setitem p l item w
  | MAddNode x l => padd_node p x l
  | MAddLayer l k => padd_layer p l k
  | MAAddNode l x => A_add_node p l x
  end.

(** Two states that differ only in the iteration order of their sets. *)
Definition mreorder (p q : mpx) : Prop :=
  mcoup p = mcoup q /\ mdir p = mdir q /\ mnoe p = mnoe q /\ mfic p = mfic q /\
  Forall2 Permutation (mslices p) (mslices q) /\
  Forall2 (fun x y => x.1 = y.1 /\ reorder (x.2) (y.2)) (mA p) (mA q) /\
  Forall2 (fun x y => x.1 = y.1 /\ Permutation (x.2) (y.2)) (mn2l p) (mn2l q).

(** Histories of calls with their outcomes. *)
Inductive mhist (cs : list coupling) (dir : bool) (noe : Z) (fi : bool)
  : list (mop * res unit) -> mpx -> Prop :=
| mhist_init : mhist cs dir noe fi [] (new_mpx cs dir noe fi)
| mhist_op h p o p' r : mhist cs dir noe fi h p -> mstep p o = (p', r) -> mhist cs dir noe fi (h ++ [(o, r)]) p'
| mhist_reorder h p q : mhist cs dir noe fi h p -> mreorder p q -> mhist cs dir noe fi h q.

Definition mrun (p : mpx) (h : list mop) : mpx := fold_left (fun q o => (mstep q o).1) h p.
