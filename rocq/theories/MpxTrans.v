(** * Transformations of MultiplexNetwork and its equality (/repo/pymnet/transforms.py,
    net.py 1263-1270).  Definitions only; the conventions of Mpx.v and Trans.v. *)
From Verif Require Export Mpx Trans.

(** One call made by library code on a network it is building, and a loop of such calls. *)
Definition mdo (p : mpx) (o : mop) : res mpx :=
  match mstep p o with (p', Ok _) => Ok p' | (_, Err e) => Err e end.
Definition mbuild (p : mpx) (os : list mop) : res mpx := rfold mdo p os.

(** [MultiplexNetwork(couplings=net.couplings,directed=net.directed,noEdge=net.noEdge,
    fullyInterconnected=net.fullyInterconnected)], net.py 930-972: the stored coupling of
    a network is the tuple [(network,)], which the assertion in line 942 rejects. *)
Definition is_cnet (c : coupling) : bool := match c with CNet _ => true | _ => false end.
Definition like (p : mpx) : res mpx :=
  if existsb is_cnet (mcoup p) then Err AssertionError
  else Ok (new_mpx (mcoup p) (mdir p) (mnoe p) (mfic p)).
(** [net.A[l]] *)
Definition layer_net (p : mpx) (l : layer) : res mlnet :=
  match pA p l with Some m => Ok m | None => Err KeyError end.
(** A layer of the network as a tuple: transforms.py 326-329. *)
Definition lay_tuple (l : layer) : list name := match l with LBare x => [x] | LTup ls => ls end.

(** ** Equality *)
(** Comparison of two stored couplings (Python tuples); coupling networks are compared
    by [MultilayerNetwork.__eq__]. *)
Definition coup_eq (c d : coupling) : res bool :=
  match c, d with
  | CCat v, CCat w | COrd v, COrd w => Ok (bool_decide (v = w))
  | CNone v, CNone w => Ok (bool_decide (v = w))
  | CNet m, CNet n => net_eq m n
  | _, _ => Ok false
  end.
Fixpoint coups_eq (cs ds : list coupling) : res bool :=
  match cs, ds with
  | [], [] => Ok true
  | c :: cs, d :: ds => let? b := coup_eq c d in if b then coups_eq cs ds else Ok false
  | _, _ => Ok false
  end.
(** net.py 1263-1270 [__eq__], lines 1266-1269. *)
Fixpoint layers_eq (p q : mpx) (ls : list layer) : res bool :=
  match ls with
  | [] => Ok true
  | l :: ls =>
    let? m := layer_net p l in let? n := layer_net q l in
    let? b := net_eq m n in
    if b then layers_eq p q ls else Ok false
  end.
Definition meq (p q : mpx) : res bool :=
  if bool_decide (mdir p = mdir q) && bool_decide (maspects p = maspects q)
     && bool_decide (mfic p = mfic q) && bool_decide (mnoe p = mnoe q)
     && slices_eqb (mslices p) (mslices q)
  then let? b := coups_eq (mcoup p) (mcoup q) in
       if b then layers_eq p q (mlayers p) else Ok false
  else Ok false.

(** ** relabel and normalize *)
(** transforms.py 300-311: nodes, elementary layers and node-layers of the new network. *)
Definition mrelabel_struct (p : mpx) (ds : list (dict name name)) (nls : list nl) : list mop :=
  ((fun x => MAddNode (ren (default [] (ds !! 0%nat)) x) None) <$> mnodes p) ++
  (seq 1 (maspects p) ≫= fun k =>
     (fun l => MAddLayer (ren (default [] (ds !! k)) l) k) <$> default [] (mslices p !! k)) ++
  ((fun a => MAddNode (node_of (ren_nl ds a)) (Some (lay_arg (tail (ren_nl ds a))))) <$> nls).
(** transforms.py 325-331: the pairs visited, layer by layer; the neighbours of a node are
    those of [net.A[layer][node]] (both directions in a directed network). *)
Definition mlayer_pairs (p : mpx) : res (list (layer * (name * name))) :=
  let? ts := rmapM (fun l => let? m := layer_net p l in
               Ok (net_nodes m ≫= fun x => (fun b => (l, (x, node_of b))) <$> iter_total m [x] None)) (mlayers p) in
  Ok (concat ts).
Definition mrelabel_link (p : mpx) (ds : list (dict name name)) (q : mpx) (t : layer * (name * name)) : res mpx :=
  let '(l, (x, y)) := t in
  let? w := pgetitem p (x :: y :: lay_tuple l) in
  let rx := ren_nl ds (x :: lay_tuple l) in
  mdo q (MSet (node_of rx :: ren (default [] (ds !! 0%nat)) y :: tail rx) w).
(** transforms.py 254-339 [relabel] of a MultiplexNetwork. *)
Definition mrelabel (p : mpx) (ds : list (dict name name)) : res mpx :=
  let? q0 := like p in
  let? nls := if mfic p then Ok [] else miter_node_layers p in
  let? q1 := mbuild q0 (mrelabel_struct p ds nls) in
  let? ts := mlayer_pairs p in
  rfold (mrelabel_link p ds) q1 ts.
(** transforms.py 341-413 [normalize] of a MultiplexNetwork. *)
Definition mnormalize (p : mpx) (nodeStart layerStart : Z) : res (mpx * list (dict name name)) :=
  let? ds := rmapM (fun q => index_map (if decide (q.1 = 0) then nodeStart else layerStart) (q.2))
               (imap pair (mslices p)) in
  let? m := mrelabel p ds in Ok (m, ds).

(** ** threshold *)
(** transforms.py 459-462. *)
Definition mthr_layer (r : rule) (t : Z) (p : mpx) (q : mpx) (l : layer) : res mpx :=
  let? m := layer_net p l in
  rfold (fun q (e : list name * Z) =>
           let? b := accept r (e.2) t in
           if b then mdo q (MASet l (e.1) (e.2)) else Ok q) q (edges m).
(** transforms.py 416-469 [threshold] of a MultiplexNetwork all of whose couplings are
    "none" (otherwise the result is a MultilayerNetwork, see Trans.v). *)
Definition mthreshold (p : mpx) (t : Z) (r : rule) : res mpx :=
  let? q0 := like p in
  let? q1 := mbuild q0 (((fun x => MAddNode x None) <$> mnodes p) ++
               (seq 1 (maspects p) ≫= fun k => (fun l => MAddLayer l k) <$> default [] (mslices p !! k))) in
  let? nls := if mfic p then Ok [] else miter_node_layers p in
  let? _ := match nls with [] => Ok tt | _ => Err NameError end in
  rfold (mthr_layer r t p) q1 (mlayers p).

(** ** subnet *)
Definition mselection (p : mpx) (args : list (option (list name))) : list (list name) :=
  imap (fun k o => match o with None => default [] (mslices p !! k) | Some l => remove_dups l end) args.
(** transforms.py 178-186: existing selected names (aspect 0 only if the network is fully
    interconnected), and 188-196: selected node-layers. *)
Definition msub_struct (p : mpx) (sel : list (list name)) (nls : list nl) : list mop :=
  (filter (fun q : nat * list name => mfic p = true \/ q.1 <> 0) (imap pair sel) ≫= fun q =>
     (fun x => MAddLayer x (q.1)) <$> filter (fun x => x ∈ default [] (mslices p !! q.1)) (q.2)) ++
  ((fun a => MAddNode (node_of a) (Some (lay_arg (tail a)))) <$> filter (fun a => selected sel a = true) nls).
(** transforms.py 178-227 on the intra-layer network [m] of layer [l], with the
    intra-layer network of the new network as [newNet]: nodes, then links. *)
Definition msub_layer_ops (l : layer) (m : mlnet) (s : list name) : list mop :=
  let old := filter (fun x => x ∈ net_nodes m) s in
  ((fun x => MAAddNode l x) <$> old) ++
  (s ≫= fun x => (fun y => MASet l [x; y] (weight m [x] [y])) <$>
     (if decide (Z.of_nat (length old) <= degree m [x] None)%Z
      then filter (fun y => weight m [x] [y] <> noEdge m) s
      else filter (fun y => y ∈ s) (node_of <$> iter_total m [x] None))).
Definition msub_layer (p : mpx) (s : list name) (q : mpx) (ls : list name) : res mpx :=
  let l := lkey (maspects p) ls in
  let? m := layer_net p l in
  let? _ := layer_net q l in
  mbuild q (msub_layer_ops l m s).
(** transforms.py 120-233 [subnet] of a MultiplexNetwork with [newNet=None]; [args] is the
    node argument followed by the layer arguments. *)
Definition msubnet (p : mpx) (args : list (option (list name))) (nolinks : bool) : res mpx :=
  if decide (length args = S (maspects p)) then
    let sel := mselection p args in
    let? q0 := like p in
    let? nls := if mfic p then Ok [] else miter_node_layers p in
    let? q1 := mbuild q0 (msub_struct p sel nls) in
    if nolinks then Ok q1
    else rfold (msub_layer p (default [] (sel !! 0))) q1 (cart (tail sel))
  else Err AssertionError.

(** ** randomize_nodes_by_layer *)
(** transforms.py 476-487: one layer; [sh] is the list of nodes after [random.shuffle]. *)
Definition rand_layer (sh : layer -> list name) (p : mpx) (q : mpx) (l : layer) : res mpx :=
  let? m := layer_net p l in
  let? _ := layer_net q l in
  let nm : dict name name := zip (net_nodes m) (sh l) in
  let? q1 := mbuild q ((fun x => MAAddNode l x) <$> net_nodes m) in
  rfold (fun q (e : list name * Z) =>
           match e.1 with
           | [x; y] =>
             match dget nm x, dget nm y with
             | Some x', Some y' => mdo q (MASet l [x'; y'] (e.2))
             | _, _ => Err KeyError
             end
           | _ => Err IndexError
           end) q1 (edges m).
(** transforms.py 471-488 [randomize_nodes_by_layer]; the random number generator is the
    argument [sh]. *)
Definition mrandomize (p : mpx) (sh : layer -> list name) : res mpx :=
  if decide (maspects p = 1) then
    let? q := msubnet p [Some []; Some (default [] (mslices p !! 1%nat))] false in
    rfold (rand_layer sh p) q (dkeys (mA p))
  else Err AssertionError.
