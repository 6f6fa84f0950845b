(** * Network transformations (/repo/pymnet/transforms.py).  Definitions only. *)
From Verif Require Export Build Supra.

(** What a transformation observes of its argument, for a MultilayerNetwork or a
    MultiplexNetwork: the configuration, [net.slices], [net.iter_node_layers()]
    and [net.edges] (index tuple and weight). *)
Record src := MkSrc {
  s_asp : nat; s_dir : bool; s_noe : Z; s_fic : bool;
  s_sl : list (list name); s_nls : list nl; s_edges : list (list name * Z) }.
Definition s_nodes (s : src) : list name := default [] (s_sl s !! 0%nat).
Definition s_layers (s : src) (k : nat) : list name := default [] (s_sl s !! k).
Definition src_of (n : mlnet) : src :=
  MkSrc (aspects n) (directed n) (noEdge n) (fic n) (slices n) (iter_node_layers n) (edges n).

(** transforms.py 76: [filter(lambda x: floor(x/2) not in aspects, range(2*(net.aspects+1)))]
    and 78-80: the remaining entries of the index tuple. *)
Definition edge_indices (asp : nat) (ds : list nat) : list nat :=
  filter (fun x => x / 2 ∉ ds) (seq 0 (2 * S asp)).
Definition new_edge (asp : nat) (ds : list nat) (e : list name) : list name :=
  omap (fun i => e !! i) (edge_indices asp ds).
(** transforms.py 77-82: one edge.  [newNet[...]] of a tuple that names a
    node-layer instead of a link cannot be added to a number (TypeError). *)
Definition agg_step (asp : nat) (ds : list nat) (selfE : bool) (m : mlnet) (e : list name * Z) : res mlnet :=
  let ne := new_edge asp ds (e.1) in
  if selfE || negb (bool_decide (evens ne = odds ne)) then
    match getitem m (INm <$> ne) with
    | Ok (GWeight v) => do_op m (OpSet ne (v + e.2))
    | Ok (GNode _ _) => Err TypeError
    | Err x => Err x
    end
  else Ok m.
(** The layer argument for [add_node] made from a list of elementary layers: the
    bare name for a single aspect (transforms.py 92-95, 191-194, 308-311). *)
Definition lay_arg (ls : list name) : layer := match ls with [l] => LBare l | _ => LTup ls end.
(** transforms.py 86-95. *)
Definition agg_nl (asp : nat) (ds : list nat) (a : nl) : op :=
  OpAddNode (node_of a) (Some (lay_arg (omap (fun i => a !! i) (filter (fun x => x ∉ ds) (seq 1 asp))))).
(** transforms.py 14-97 [aggregate] with [newNet=None].  [aspects] is the tuple of
    aspects (an int is turned into a tuple in lines 57-61).
    Simplification: a supplied [newNet] is not modelled. *)
Definition aggregate (s : src) (ds : list nat) (selfE : bool) : res mlnet :=
  if decide (length ds <= s_asp s) then
    if forallb (fun d => bool_decide (0 < d <= S (s_asp s))) ds then
      let asp' := s_asp s - length ds in
      let? m0 := build (new_net asp' (s_noe s) (s_dir s) (s_fic s)) ((fun x => OpAddNode x None) <$> s_nodes s) in
      let? m1 := rfold (agg_step (s_asp s) ds selfE) m0 (s_edges s) in
      if negb (s_fic s) && bool_decide (0 < asp') then build m1 (agg_nl (s_asp s) ds <$> s_nls s) else Ok m1
    else Err AssertionError
  else Err AssertionError. (* MultilayerNetwork(aspects<0) *)

(** Python's [x>y]: comparing an int with a str raises TypeError. *)
Definition py_gt (x y : name) : res bool :=
  if eqb (is_int x) (is_int y) then Ok (negb (name_leb x y)) else Err TypeError.
(** transforms.py 111-117: one layer and one pair of nodes. [w i j l] is the
    reading [net[i,j,l,l]]. *)
Definition overlay_step (dir : bool) (w : name -> name -> name -> res Z) (m : mlnet)
  (t : name * (name * name)) : res mlnet :=
  let '(l, (i, j)) := t in
  let? g := if dir then Ok true else py_gt i j in
  if g then
    match getitem m (INm <$> [i; j]) with
    | Ok (GWeight v) => let? u := w i j l in do_op m (OpSet [i; j] (v + u))
    | _ => Err TypeError
    end
  else Ok m.
(** transforms.py 103-118 [overlay_network]. *)
Definition overlay (asp : nat) (dir : bool) (sl : list (list name)) (w : name -> name -> name -> res Z) : res mlnet :=
  if decide (asp = 1) then
    let nodes := default [] (sl !! 0%nat) in
    rfold (overlay_step dir w) (new_net 0 0 false true)
      (default [] (sl !! 1%nat) ≫= fun l => nodes ≫= fun i => (fun j => (l, (i, j))) <$> nodes)
  else Err AssertionError.
Definition net_overlay (n : mlnet) : res mlnet :=
  overlay (aspects n) (directed n) (slices n) (fun i j l => Ok (weight n [i; l] [j; l])).

(** ** subnet *)
(** transforms.py 155-161: the selected names for each aspect; [None] selects all. *)
Definition selection (n : mlnet) (args : list (option (list name))) : list (list name) :=
  imap (fun k o => match o with None => default [] (slices n !! k) | Some l => remove_dups l end) args.
(** [reduce(lambda x,y: x and y, (e in nodelayers[a] for a,e in enumerate(nl)))] *)
Definition selected (sel : list (list name)) (a : nl) : bool :=
  forallb (fun p => lin (p.2) (default [] (sel !! p.1))) (imap pair a).
(** transforms.py 179-186: existing names that are added, per aspect (aspect 0
    only if the network is fully interconnected). *)
Definition sub_elems (n : mlnet) (sel : list (list name)) : list (nat * list name) :=
  (fun p => (p.1, filter (fun x => x ∈ default [] (slices n !! p.1)) (p.2)))
    <$> filter (fun p => fic n = true \/ p.1 <> 0) (imap pair sel).
Definition sub_layer_ops (n : mlnet) (sel : list (list name)) : list op :=
  sub_elems n sel ≫= fun p => (fun x => OpAddLayer x (p.1)) <$> p.2.
(** transforms.py 188-196: the selected node-layers. *)
Definition sub_nls (n : mlnet) (sel : list (list name)) : list nl :=
  filter (fun a => selected sel a = true) (iter_node_layers n).
(** transforms.py 188-199: [totalNodeLayers]. *)
Definition sub_total (n : mlnet) (sel : list (list name)) : Z :=
  if fic n then foldr (fun p z => Z.of_nat (length (p.2)) * z)%Z 1%Z (sub_elems n sel)
  else Z.of_nat (length (sub_nls n sel)).
(** transforms.py 211-227: the links written for one first endpoint. *)
Definition sub_link_ops (n : mlnet) (sel : list (list name)) (a : nl) : list op :=
  if decide (sub_total n sel <= degree n a None)%Z then
    (fun b => OpNodeSet a b (weight n a b)) <$> filter (fun b => weight n a b <> noEdge n) (cart sel)
  else
    (fun b => OpNodeSet a b (weight n a b)) <$> filter (fun b => selected sel b = true) (iter_total n a None).
(** transforms.py 120-233 [subnet] of a MultilayerNetwork with [newNet=None];
    [args] is the node argument followed by the layer arguments. *)
Definition subnet (n : mlnet) (args : list (option (list name))) (nolinks : bool) : res mlnet :=
  if decide (length args = S (aspects n)) then
    let sel := selection n args in
    let? m0 := build (new_net (aspects n) (noEdge n) (directed n) (fic n)) (sub_layer_ops n sel) in
    let? m1 := if fic n then Ok m0
               else build m0 ((fun a => OpAddNode (node_of a) (Some (lay_arg (tail a)))) <$> sub_nls n sel) in
    if nolinks then Ok m1 else rfold (fun m a => build m (sub_link_ops n sel a)) m1 (cart sel)
  else Err AssertionError.

(** ** relabel and normalize *)
(** transforms.py 271-275 [dget]. *)
Definition ren (d : dict name name) (x : name) : name := default x (dget d x).
(** transforms.py 277-278 [layer_to_indexlayer], applied to a whole node-layer:
    [ds] is the map for nodes followed by the maps for the aspects. *)
Definition ren_nl (ds : list (dict name name)) (a : nl) : nl :=
  imap (fun k x => ren (default [] (ds !! k)) x) a.
(** transforms.py 318-323: the entries [2k] and [2k+1] are renamed by map [k]. *)
Definition ren_edge (ds : list (dict name name)) (e : list name) : list name :=
  imap (fun k x => ren (default [] (ds !! (k / 2))) x) e.
(** transforms.py 300-323, for a MultilayerNetwork: the calls made on the new
    network.  Missing layer maps are empty (lines 286-291; the list given by the
    caller is extended in place, which is not modelled). *)
Definition relabel_ops (s : src) (ds : list (dict name name)) : list op :=
  ((fun x => OpAddNode (ren (default [] (ds !! 0%nat)) x) None) <$> s_nodes s) ++
  (seq 1 (s_asp s) ≫= fun k => (fun l => OpAddLayer (ren (default [] (ds !! k)) l) k) <$> s_layers s k) ++
  (if s_fic s then [] else
     (fun a => OpAddNode (node_of (ren_nl ds a)) (Some (lay_arg (tail (ren_nl ds a))))) <$> s_nls s) ++
  ((fun e => OpSet (ren_edge ds (e.1)) (e.2)) <$> s_edges s).
(** transforms.py 254-339 [relabel]. *)
Definition relabel (s : src) (ds : list (dict name name)) : res mlnet :=
  build (new_net (s_asp s) (s_noe s) (s_dir s) (s_fic s)) (relabel_ops s ds).

(** transforms.py 381-386: the maps from names to consecutive integers. *)
Definition index_map (start : Z) (s : list name) : res (dict name name) :=
  let? t := py_sorted s in
  Ok (imap (fun i x => (x, NInt (start + Z.of_nat i))) t).
(** transforms.py 341-413 [normalize] and the maps it can return ([nodeNames] first). *)
Definition normalize (s : src) (nodeStart layerStart : Z) : res (mlnet * list (dict name name)) :=
  let? ds := rmapM (fun p => index_map (if decide (p.1 = 0) then nodeStart else layerStart) (p.2))
               (imap pair (s_sl s)) in
  let? m := relabel s ds in Ok (m, ds).
(** transforms.py 390-396, 398-405: the inverse map returned on request. *)
Definition invert (d : dict name name) : dict name name := foldl (fun r p => dset r (p.2) (p.1)) [] d.

(** ** threshold *)
Inductive rule := RGe | RLe | RGt | RLt | ROther.
(** transforms.py 417-427 [accept_edge]. *)
Definition accept (r : rule) (w t : Z) : res bool :=
  match r with
  | RGe => Ok (bool_decide (t <= w)%Z) | RLe => Ok (bool_decide (w <= t)%Z)
  | RGt => Ok (bool_decide (t < w)%Z) | RLt => Ok (bool_decide (w < t)%Z)
  | ROther => Err GenericException
  end.
(** transforms.py 449-453: the name [lnodelayer] is not defined. *)
Definition thr_nls (s : src) : res unit :=
  if s_fic s then Ok tt else match s_nls s with [] => Ok tt | _ => Err NameError end.
Definition thr_step (r : rule) (t : Z) (m : mlnet) (e : list name * Z) : res mlnet :=
  let? b := accept r (e.2) t in if b then do_op m (OpSet (e.1) (e.2)) else Ok m.
(** transforms.py 416-469 [threshold], the branch producing a MultilayerNetwork. *)
Definition threshold (s : src) (t : Z) (r : rule) : res mlnet :=
  let? m0 := build (new_net (s_asp s) (s_noe s) (s_dir s) (s_fic s))
               (((fun x => OpAddNode x None) <$> s_nodes s) ++
                (seq 1 (s_asp s) ≫= fun k => (fun l => OpAddLayer l k) <$> s_layers s k)) in
  let? _ := thr_nls s in
  rfold (thr_step r t) m0 (s_edges s).

(** ** get_underlying_graph *)
(** transforms.py 571-616; [str] is Python's [str] on node-layer tuples. *)
Definition underlying (str : nl -> name) (s : src) : res mlnet :=
  build (new_net 0 (s_noe s) (s_dir s) true)
    (((fun a => OpAddNode (str a) None) <$> s_nls s) ++
     ((fun e => let '(a, b) := link_to_nodes (e.1) in OpNodeSet [str a] [str b] (e.2)) <$> s_edges s)).
