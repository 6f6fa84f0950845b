(** * Clustering coefficients (/repo/pymnet/cc.py).  Definitions only.
    Floats are modelled by rationals (no rounding).  A function that may return its
    argument [undefReturn] returns [option Q]; [None] stands for that argument.  A
    counter that a loop adds to is modelled as a sum.  Not modelled: cc_onnela (cube
    roots) and the numpy functions cc_cycle_vector_adj, gcc_aw_vector_adj,
    gcc_aw_seplayers_adj, gcc_vector_moreno, gcc_vector_moreno2 and their callers. *)
From Verif Require Export Diag.
Open Scope Z_scope.

(** [itertools.combinations(l,2)] *)
Fixpoint pairs2 {A} (l : list A) : list (A * A) :=
  match l with [] => [] | x :: l => (pair x <$> l) ++ pairs2 l end.
(** [s=0; for x in l: s+=f(x)], where evaluating [f(x)] may raise. *)
Fixpoint rsum {A} (f : A -> res Z) (l : list A) : res Z :=
  match l with
  | [] => Ok 0
  | x :: l => let? v := f x in let? t := rsum f l in Ok (v + t)
  end.
(** [s=0; for x in l: if f(x)!=noe: s+=1] *)
Definition zne (x noe : Z) : Z := if decide (x = noe) then 0 else 1.
(** [x/float(y)] *)
Definition fdiv (x y : Q) : res Q := if Qeq_bool y 0 then Err ZeroDivisionError else Ok (x / y)%Q.
Definition zdiv (x y : Z) : res Q := fdiv (inject_Z x) (inject_Z y).

(** ** Monoplex networks *)
(** cc.py 8-14 [cc_num_den]; the node may also be a node-layer tuple of a network with
    aspects (as in gcc_super_graph).  [den] is an even number divided by 2. *)
Definition cc_num_den (n : mlnet) (a : nl) : Z * Z :=
  let k := degree n a None in
  (zsumf (fun q => zne (weight n (q.1) (q.2)) (noEdge n)) (pairs2 (iter_total n a None)), k * (k - 1) / 2).
(** cc.py 16-49 [lcc]. *)
Definition lcc (n : mlnet) (a : nl) : res (option Q) :=
  if decide (2 <= degree n a None) then let? q := zdiv ((cc_num_den n a).1) ((cc_num_den n a).2) in Ok (Some q)
  else Ok None.
(** [max(map(lambda x:x[2],net.edges))], networks without aspects; ValueError if there
    are no edges. *)
Definition max_weight (n : mlnet) : res Z :=
  match edges n with
  | [] => Err ValueError
  | e :: es => Ok (foldl (fun m x => Z.max m (x.2)) (e.2) es)
  end.
(** cc.py 69-77: the sums over pairs of neighbours. *)
Definition zhang_nom (n : mlnet) (a : nl) : Z :=
  zsumf (fun q => let ij := weight n (q.1) (q.2) in
                  if decide (ij = noEdge n) then 0 else weight n a (q.1) * weight n a (q.2) * ij)
        (pairs2 (iter_total n a None)).
Definition zhang_den (n : mlnet) (a : nl) : Z :=
  zsumf (fun q => weight n a (q.1) * weight n a (q.2)) (pairs2 (iter_total n a None)).
(** cc.py 52-80 [cc_zhang]. *)
Definition cc_zhang (n : mlnet) (a : nl) : res (option Q) :=
  let? maxw := max_weight n in
  if decide (2 <= degree n a None) then
    let? x := zdiv (zhang_nom n a) (zhang_den n a) in
    let? q := fdiv x (inject_Z maxw) in Ok (Some q)
  else Ok None.
(** cc.py 83-110 [gcc_zhang]; [None] is returned if the denominator vanishes. *)
Definition gcc_zhang (n : mlnet) : res (option Q) :=
  let? maxw := max_weight n in
  let big := filter (fun x => 2 <= degree n [x] None) (net_nodes n) in
  let nom := zsumf (fun x => zhang_nom n [x]) big in
  let den := zsumf (fun x => zhang_den n [x]) big in
  if decide (den = 0) then Ok None
  else let? x := zdiv nom den in let? q := fdiv x (inject_Z maxw) in Ok (Some q).
(** cc.py 136-154 [cc_barrat]. *)
Definition cc_barrat (n : mlnet) (a : nl) : res (option Q) :=
  if decide (2 <= degree n a None) then
    let nom := zsumf (fun q => if decide (weight n (q.1) (q.2) = noEdge n) then 0
                               else weight n a (q.1) + weight n a (q.2)) (pairs2 (iter_total n a None)) in
    let? q := zdiv nom ((degree n a None - 1) * strength n a None) in Ok (Some q)
  else Ok None.

(** ** Barrett's coefficient.  [an] is the aggregated network (0 aspects). *)
(** Iterating [net[x]] in a network without aspects yields bare nodes. *)
Definition nbs0 (m : mlnet) (x : name) : list name := node_of <$> iter_total m [x] None.
Definition w0 (m : mlnet) (x y : name) : Z := weight m [x] [y].
Definition deg0 (m : mlnet) (x : name) : Z := degree m [x] None.
(** [net.slices[1]]; IndexError without aspects. *)
Definition layers1 (p : mpx) : res (list name) := mget_layers p 1.
(** cc.py 168-173 and 207-212: the numerator. *)
Definition barrett_nom (an : mlnet) (x : name) : Z :=
  zsumf (fun q => let ij := w0 an (q.1) (q.2) in
                  if decide (ij = noEdge an) then 0 else w0 an x (q.1) * w0 an x (q.2) * ij)
        (pairs2 (nbs0 an x)).
(** cc.py 177-185, 213-218: [sum over the layers of max(net[node,h,layer],net[j,h,layer])]. *)
Definition barrett_max (p : mpx) (x j h : name) (ls : list name) : res Z :=
  rsum (fun l => let? u := pgetitem p [x; h; l] in let? v := pgetitem p [j; h; l] in Ok (Z.max u v)) ls.
Definition barrett_ratio (nom den : Z) : res (option Q) :=
  if decide (den = 0) then Ok None else let? q := zdiv (2 * nom) den in Ok (Some q).
(** The layers of [_nodeToLayers[h]] as third index of [net[i,h,layer]]: for one aspect
    these are names; a tuple there makes the index invalid for another number of
    aspects (not modelled further: KeyError). *)
Definition bare_layers (ls : list layer) : res (list name) :=
  rmapM (fun l => match l with LBare x => Ok x | LTup _ => Err KeyError end) ls.
(** cc.py 157-190 [cc_barrett_optimized].  [ineighs | jneighs] in the order of the set
    union (neighbours of [node] first; the order only matters for exceptions). *)
Definition cc_barrett_optimized (p : mpx) (x : name) (an : mlnet) : res (option Q) :=
  if decide (2 <= deg0 an x) then
    let? den :=
      rsum (fun j =>
        rsum (fun h =>
          let? ls := if mfic p then layers1 p
                     else match dget (mn2l p) h with Some ls => bare_layers ls | None => Err KeyError end in
          let? m := barrett_max p x j h ls in Ok (w0 an x j * m))
          (nbs0 an x ++ filter (fun h => h ∉ nbs0 an x) (nbs0 an j))) (nbs0 an x) in
    barrett_ratio (barrett_nom an x) den
  else Ok None.
(** cc.py 193-224 [cc_barrett]. *)
Definition cc_barrett (p : mpx) (x : name) (an : mlnet) : res (option Q) :=
  if decide (2 <= deg0 an x) then
    let? den :=
      rsum (fun j =>
        rsum (fun h => let? ls := layers1 p in let? m := barrett_max p x j h ls in Ok (w0 an x j * m))
          (net_nodes an)) (nbs0 an x) in
    barrett_ratio (barrett_nom an x) den
  else Ok None.
(** cc.py 227-261 [cc_barrett_explicit]. *)
Definition cc_barrett_explicit (p : mpx) (x : name) : res (option Q) :=
  let n := mnodes p in
  let? b := layers1 p in
  let? nom :=
    rsum (fun j => rsum (fun h => rsum (fun k =>
      let? t1 := rsum (fun l =>
        let? t2 := rsum (fun m => pgetitem p [j; h; m]) b in
        let? w := pgetitem p [x; h; l] in Ok (t2 * w)) b in
      let? w := pgetitem p [x; j; k] in Ok (w * t1)) b) n) n in
  let? den :=
    rsum (fun j => rsum (fun h => rsum (fun k =>
      let? t1 := barrett_max p x j h b in
      let? w := pgetitem p [x; j; k] in Ok (w * t1)) b) n) n in
  if decide (den = 0) then Ok None else let? q := zdiv nom den in Ok (Some q).

(** ** Coefficients of the separate layers *)
(** [net.A[layer]]; KeyError *)
Definition intra (p : mpx) (l : layer) : res mlnet :=
  match pA p l with Some m => Ok m | None => Err KeyError end.
(** cc.py 264-279 [cc_sequence], one pair (triangles,tuples) per layer in the order of
    the dict [net.A]. *)
Definition tri0 (m : mlnet) (x : name) : Z :=
  if decide (2 <= deg0 m x) then zsumf (fun q => zne (w0 m (q.1) (q.2)) (noEdge m)) (pairs2 (nbs0 m x)) else 0.
Definition cc_sequence (p : mpx) (x : name) : res (list (Z * Z)) :=
  rmapM (fun l => let? m := intra p l in Ok (tri0 m x, deg0 m x * (deg0 m x - 1) / 2)) (dkeys (mA p)).
(** cc.py 287-289 [cc_layers_wavg]. *)
Definition cc_layers_wavg (p : mpx) (x : name) : res Q :=
  let? s := cc_sequence p x in zdiv (zsum (s.*1)) (zsum (s.*2)).
(** cc.py 292-301 [gcc_super_graph_no_couplings]. *)
Definition gcc_super_graph_no_couplings (p : mpx) : res (option Q) :=
  let? ss := rmapM (cc_sequence p) (mnodes p) in
  let num := zsum ((fun s : list (Z * Z) => zsum (s.*1)) <$> ss) in
  let den := zsum ((fun s : list (Z * Z) => zsum (s.*2)) <$> ss) in
  if decide (den = 0) then Ok None else let? q := zdiv num den in Ok (Some q).
(** cc.py 303-312 [gcc_super_graph] for a MultilayerNetwork. *)
Definition gcc_super_graph (n : mlnet) : res (option Q) :=
  let num := zsumf (fun a => (cc_num_den n a).1) (cart (slices n)) in
  let den := zsumf (fun a => (cc_num_den n a).2) (cart (slices n)) in
  if decide (den = 0) then Ok None else let? q := zdiv num den in Ok (Some q).

(** ** Elementary cycles, one aspect *)
(** [for dummy,layer2 in net[i,i,layer,:]]: the second coordinates. *)
Definition coup_layers (p : mpx) (i l : name) : res (list name) :=
  let? L := mp_iter p DTot [i; l] (Some [Some i; None]) in
  rmapM (fun b : nl => match b with [_; y] => Ok y | _ => Err ValueError end) L.
(** [for j,dummy in net[i,:,layer,layer]]: the first coordinates. *)
Definition lay_nodes (p : mpx) (i l : name) : res (list name) :=
  let? L := mp_iter p DTot [i; l] (Some [None; Some l]) in
  rmapM (fun b : nl => match b with [j; _] => Ok j | _ => Err ValueError end) L.
(** [net[i,i,layer,:].deg()], [net[i,:,layer,layer].deg()] *)
Definition coup_deg (p : mpx) (i l : name) : res Z := mp_degree p DTot [i; l] (Some [Some i; None]).
Definition lay_deg (p : mpx) (i l : name) : res Z := mp_degree p DTot [i; l] (Some [None; Some l]).
(** [net[j,l][i,l]!=net.noEdge] and [net[i,i,l,l2]!=net.noEdge], as 0 or 1. *)
Definition lnk1 (p : mpx) (j i l : name) : res Z := let? w := pgetitem p [j; i; l; l] in Ok (zne w (mnoe p)).
Definition cpl1 (p : mpx) (i l l2 : name) : res Z := let? w := pgetitem p [i; i; l; l2] in Ok (zne w (mnoe p)).

(** cc.py 373-377 (also 513-517, 572-575): triangles inside the layer, doubled. *)
Definition cyc_aaa (m : mlnet) (x : name) : Z := 2 * tri0 m x.
(** cc.py 380-385 *)
Definition cyc_aacac (p : mpx) (m : mlnet) (x l : name) : res Z :=
  rsum (fun i => rsum (fun j => let? cs := coup_layers p j l in rsum (fun l2 => lnk1 p j x l2) cs) (nbs0 m i)) (nbs0 m x).
(** cc.py 388-393 (also 527-531) *)
Definition cyc_acaac (p : mpx) (m : mlnet) (x l : name) : res Z :=
  rsum (fun i => let? cs := coup_layers p i l in
    rsum (fun l2 => let? js := lay_nodes p i l2 in rsum (fun j => lnk1 p j x l2) js) cs) (nbs0 m x).
(** cc.py 396-402 *)
Definition cyc_acaca (p : mpx) (m : mlnet) (x l : name) : res Z :=
  if decide (2 <= deg0 m x) then
    let? s := rsum (fun q : name * name => let? cs := coup_layers p (q.1) l in
                      rsum (fun l2 => lnk1 p (q.1) (q.2) l2) cs) (pairs2 (nbs0 m x)) in Ok (s * 2)
  else Ok 0.
(** cc.py 405-417 *)
Definition cyc_acacac (p : mpx) (m : mlnet) (x l : name) : res Z :=
  rsum (fun i => let? cs := coup_layers p i l in
    rsum (fun l2 => let? js := lay_nodes p i l2 in
      rsum (fun j => let? ds := coup_layers p j l2 in
        rsum (fun l3 => if decide (l3 <> l) then lnk1 p j x l3 else Ok 0) ds) js) cs) (nbs0 m x).
(** cc.py 421 *)
Definition cyc_afa (m : mlnet) (x : name) : Z := deg0 m x * (deg0 m x - 1).
(** cc.py 423-431 *)
Definition cyc_afcac (p : mpx) (m : mlnet) (x l : name) : res Z :=
  let? cs := coup_layers p x l in
  rsum (fun l2 => let? is := lay_nodes p x l2 in
    rsum (fun i => let? c := cpl1 p i l l2 in
      Ok (c * (if decide (i ∈ nbs0 m x) then Z.of_nat (length (nbs0 m x)) - 1 else Z.of_nat (length (nbs0 m x))))) is) cs.
(** cc.py 445-452; line 449 tests [if net[node,i,layer2,layer2]:], i.e. different from 0. *)
Definition cyc_acfac (p : mpx) (m : mlnet) (x l : name) : res Z :=
  rsum (fun i => let? cs := coup_layers p i l in
    rsum (fun l2 => let? c := cpl1 p x l l2 in
      if decide (c = 0) then Ok 0
      else let? w := pgetitem p [x; i; l2; l2] in let? k := lay_deg p x l2 in
           Ok (if decide (w = 0) then k else k - 1)) cs) (nbs0 m x).
(** cc.py 454-464: [layertonode] *)
Definition layer_to_node (p : mpx) (m : mlnet) (x l : name) : res (dict name (list name)) :=
  rfold (fun d i => let? cs := coup_layers p i l in
    Ok (foldl (fun d l2 => dset d l2 (sadd i (default [] (dget d l2)))) d cs)) [] (nbs0 m x).
Definition cyc_acfca (p : mpx) (m : mlnet) (x l : name) : res Z :=
  let? d := layer_to_node p m x l in
  Ok (zsumf (fun kv : name * list name => Z.of_nat (length (kv.2)) * (Z.of_nat (length (kv.2)) - 1)) d).
(** cc.py 468-483 *)
Definition cyc_acfcac (p : mpx) (m : mlnet) (x l : name) : res Z :=
  rsum (fun i => let? cs := coup_layers p x l in
    rsum (fun l3 => let? js := lay_nodes p x l3 in
      rsum (fun j =>
        if decide (i <> j) then
          let? ki := coup_deg p i l in let? kj := coup_deg p j l3 in
          if decide (kj < ki) then
            let? ds := coup_layers p j l3 in rsum (fun l2 => if decide (l2 <> l) then cpl1 p i l l2 else Ok 0) ds
          else
            let? ds := coup_layers p i l in rsum (fun l2 => if decide (l2 <> l3) then cpl1 p j l3 l2 else Ok 0) ds
        else Ok 0) js) cs) (nbs0 m x).
(** cc.py 355-486 [cc_cycle_vector_bf]: the ten counts aaa, aacac, acaac, acaca, acacac,
    afa, afcac, acfac, acfca, acfcac.  Simplification: line 371 ([other_layers], never
    used) is left out. *)
Definition cc_cycle_vector_bf (p : mpx) (x l : name) : res (list Z) :=
  if decide (maspects p = 1%nat) then
    let? m := intra p (LBare l) in
    let? v2 := cyc_aacac p m x l in
    let? v3 := cyc_acaac p m x l in
    let? v4 := cyc_acaca p m x l in
    let? v5 := cyc_acacac p m x l in
    let? v7 := cyc_afcac p m x l in
    if mfic p then
      let? ls := layers1 p in
      let b := Z.of_nat (length ls) in
      Ok [cyc_aaa m x; v2; v3; v4; v5; cyc_afa m x; v7; v7; cyc_afa m x * (b - 1); v7 * (b - 2)]
    else
      let? v8 := cyc_acfac p m x l in
      let? v9 := cyc_acfca p m x l in
      let? v10 := cyc_acfcac p m x l in
      Ok [cyc_aaa m x; v2; v3; v4; v5; cyc_afa m x; v7; v8; v9; v10]
  else Err AssertionError.

(** ** The version using the aggregated network [an] *)
(** [net[j,node,layer]!=net.noEdge], as 0 or 1 *)
Definition lnk3 (p : mpx) (j i l : name) : res Z := let? w := pgetitem p [j; i; l] in Ok (zne w (mnoe p)).
(** cc.py 520-524, 578-583 *)
Definition any_aacac (p : mpx) (an m : mlnet) (x l : name) : res Z :=
  rsum (fun i => rsum (fun j => let? k := lnk3 p j x l in Ok (w0 an j x - k)) (nbs0 m i)) (nbs0 m x).
(** cc.py 534-539, 589-594; doubled by the caller *)
Definition any_acaca (p : mpx) (an m : mlnet) (x l : name) : res Z :=
  if decide (2 <= deg0 m x) then
    rsum (fun q : name * name => let? k := lnk3 p (q.1) (q.2) l in Ok (w0 an (q.1) (q.2) - k)) (pairs2 (nbs0 m x))
  else Ok 0.
(** cc.py 542-549 *)
Definition any_acacac (p : mpx) (an m : mlnet) (x l : name) : res Z :=
  rsum (fun i => let? cs := coup_layers p i l in
    rsum (fun l2 => let? js := lay_nodes p i l2 in
      rsum (fun j => let? k := lnk3 p j x l in let? k2 := lnk3 p j x l2 in Ok (w0 an j x - k - k2)) js) cs) (nbs0 m x).
(** cc.py 555-562, 610-617 *)
Definition any_afcac (p : mpx) (an m : mlnet) (x l : name) : res Z :=
  rsum (fun i => let? k := lnk3 p i x l in
    let ledges := if decide (k = 0) then w0 an i x else w0 an i x - 1 in
    Ok ((if decide (i ∈ nbs0 m x) then Z.of_nat (length (nbs0 m x)) - 1 else Z.of_nat (length (nbs0 m x))) * ledges))
    (nbs0 an x).
(** cc.py 599-602; the test compares with the noEdge of the multiplex network *)
Definition any_tot (p : mpx) (an : mlnet) (x : name) : Z :=
  if decide (2 <= deg0 an x) then
    zsumf (fun q : name * name => if decide (w0 an (q.1) (q.2) = mnoe p) then 0
                 else w0 an x (q.1) * w0 an (q.1) (q.2) * w0 an (q.2) x) (pairs2 (nbs0 an x))
  else 0.
(** cc.py 489-627 [cc_cycle_vector_anet]. *)
Definition cc_cycle_vector_anet (p : mpx) (x : name) (lay : option name) (an : mlnet) : res (list Z) :=
  if decide (maspects p = 1%nat) then
    if mfic p then
      let? ls := layers1 p in
      let b := Z.of_nat (length ls) in
      match lay with
      | Some l =>
        let? m := intra p (LBare l) in
        let? v2 := any_aacac p an m x l in
        let? v3 := cyc_acaac p m x l in
        let? v4 := any_acaca p an m x l in
        let? v5 := any_acacac p an m x l in
        let? v7 := any_afcac p an m x l in
        Ok [cyc_aaa m x; v2; v3; v4 * 2; v5; cyc_afa m x; v7; v7; cyc_afa m x * (b - 1); v7 * (b - 2)]
      | None =>
        let? v1 := rsum (fun l => let? m := intra p (LBare l) in Ok (tri0 m x)) ls in
        let? v2 := rsum (fun l => let? m := intra p (LBare l) in any_aacac p an m x l) ls in
        let? v4 := rsum (fun l => let? m := intra p (LBare l) in any_acaca p an m x l) ls in
        let? v6 := rsum (fun l => let? m := intra p (LBare l) in Ok (cyc_afa m x)) ls in
        let? v7 := rsum (fun l => let? m := intra p (LBare l) in any_afcac p an m x l) ls in
        Ok [v1 * 2; v2; v2; v4 * 2; 2 * any_tot p an x - v1 * 2 - v2 - v2 - v4 * 2;
            v6; v7; v7; v6 * (b - 1); v7 * (b - 2)]
      end
    else Err AssertionError
  else Err AssertionError.

(** ** Edges and aggregation of a multiplex network *)
(** net.py 785-804 [MultilayerEdges.__iter__] on a MultiplexNetwork. *)
Fixpoint medges_und (p : mpx) (todo iterated : list nl) : res (list (list name * Z)) :=
  match todo with
  | [] => Ok []
  | a :: todo =>
    let? L := mp_iter p DTot a None in
    let? es := rmapM (fun b => let? w := pgetitem p (interleave a b) in Ok (interleave a b, w))
                     (filter (fun b => b ∉ iterated) L) in
    let? rest := medges_und p todo (a :: iterated) in
    Ok (es ++ rest)
  end.
Definition medges_dir (p : mpx) : res (list (list name * Z)) :=
  let? ls := rmapM (fun a => let? L := mp_iter p DOut a None in
    rmapM (fun b => let? w := pgetitem p (interleave a b) in Ok (interleave a b, w)) L) (cart (mslices p)) in
  Ok (concat ls).
Definition medges (p : mpx) : res (list (list name * Z)) :=
  if mdir p then medges_dir p else medges_und p (cart (mslices p)) [].
(** net.py 806-817 [MultilayerEdges.__len__] of a multiplex network. *)
Definition mlen_edges (p : mpx) : res Z :=
  let? nls := miter_node_layers p in
  let? ds := rmapM (fun a =>
      let? k := mp_degree p (if mdir p then DOut else DTot) a None in
      if mdir p then Ok k
      else let? w := pgetitem p (interleave a a) in Ok (if decide (w = mnoe p) then k else (k + 1)%Z)) nls in
  Ok (if mdir p then foldr Z.add 0%Z ds else Z.quot (foldr Z.add 0%Z ds) 2).
(** What a transformation observes of a multiplex network (see [src]). *)
Definition msrc_of (p : mpx) : res src :=
  let? nls := miter_node_layers p in
  let? es := medges p in
  Ok (MkSrc (maspects p) (mdir p) (mnoe p) (mfic p) (mslices p) nls es).
(** transforms.py 14-97 [aggregate] of a multiplex network. *)
Definition maggregate (p : mpx) (ds : list nat) (selfE : bool) : res mlnet :=
  let? s := msrc_of p in aggregate s ds selfE.

(** ** Alternating walks *)
Definition vadd (u v : list Z) : list Z := zip_with Z.add u v.
(** cc.py 338-352: the body of [elementary_cycles]. *)
Definition elementary_cycles (p : mpx) (node layer_ : option name) (anet : option mlnet) : res (list Z) :=
  match node, layer_ with
  | Some x, Some l => cc_cycle_vector_bf p x l
  | _, _ =>
    let nodes := match node with None => mnodes p | Some x => [x] end in
    if mfic p && (bool_decide (is_Some anet) || bool_decide (node = None)) then
      let? an := match anet with Some an => Ok an | None => maggregate p [1%nat] false end in
      let? vs := rmapM (fun x => cc_cycle_vector_anet p x layer_ an) nodes in
      Ok (foldl vadd (replicate 10 0) vs)
    else
      let? ls := match layer_ with
                 | None => rmapM (fun l => match l with LBare y => Ok y | LTup _ => Err AssertionError end) (mlayers p)
                 | Some l => Ok [l] end in
      let? vss := rmapM (fun l => rmapM (fun x => cc_cycle_vector_bf p x l) nodes) ls in
      Ok (foldl vadd (replicate 10 0) (concat vss))
  end.
(** The totals t1,t2,t3 and d1,d2,d3 (cc.py 790-797, 915-922, 1002-1009). *)
Definition aw_totals (v : list Z) : Z * Z * Z * (Z * Z * Z) :=
  match v with
  | [aaa; aacac; acaac; acaca; acacac; afa; afcac; acfac; acfca; acfcac] =>
    (aaa, aacac + acaac + acaca, acacac, (afa, afcac + acfac + acfca, acfcac))
  | _ => (0, 0, 0, (0, 0, 0))
  end.
Definition ratio0 (t d : Z) : Q := if decide (d = 0) then 0%Q else (inject_Z t / inject_Z d)%Q.
(** cc.py 798-813: the vector c1,c2,c3 *)
Definition aw_vector (v : list Z) : Q * Q * Q :=
  let '(t1, t2, t3, (d1, d2, d3)) := aw_totals v in (ratio0 t1 d1, ratio0 t2 d2, ratio0 t3 d3).
(** cc.py 814-823: the single value; [w3=None] is the version with layer costs. *)
Definition aw_value (w1 w2 : Q) (w3 : option Q) (v : list Z) : Q :=
  let '(t1, t2, t3, (d1, d2, d3)) := aw_totals v in
  match w3 with
  | Some w3 => (w1 * ratio0 t1 d1 + w2 * ratio0 t2 d2 + w3 * ratio0 t3 d3)%Q
  | None =>
    let a := w1 in let b := w2 in
    let t := (inject_Z t1 * (a * a * a) + inject_Z t2 * a * b * b + inject_Z t3 * (b * b * b))%Q in
    let d := (inject_Z d1 * (a * a * a) + inject_Z d2 * a * b * b + inject_Z d3 * (b * b * b))%Q in
    if Qeq_bool d 0 then 0%Q else (t / d)%Q
  end.
(** cc.py 757-823 [lcc_aw], 871-945 [sncc_aw], 965-1039 [gcc_aw], with
    [returnCVector] true and false. *)
Definition lcc_aw_vector (p : mpx) (x l : name) (an : option mlnet) : res (Q * Q * Q) :=
  rmap aw_vector (elementary_cycles p (Some x) (Some l) an).
Definition lcc_aw (p : mpx) (x l : name) (w1 w2 : Q) (w3 : option Q) (an : option mlnet) : res Q :=
  rmap (aw_value w1 w2 w3) (elementary_cycles p (Some x) (Some l) an).
Definition sncc_aw_vector (p : mpx) (x : name) (an : option mlnet) : res (Q * Q * Q) :=
  rmap aw_vector (elementary_cycles p (Some x) None an).
Definition sncc_aw (p : mpx) (x : name) (w1 w2 : Q) (w3 : option Q) (an : option mlnet) : res Q :=
  rmap (aw_value w1 w2 w3) (elementary_cycles p (Some x) None an).
Definition gcc_aw_vector (p : mpx) : res (Q * Q * Q) := rmap aw_vector (elementary_cycles p None None None).
Definition gcc_aw (p : mpx) (w1 w2 : Q) (w3 : option Q) : res Q :=
  rmap (aw_value w1 w2 w3) (elementary_cycles p None None None).
Definition qsum (l : list Q) : Q := foldr Qplus 0%Q l.
(** The loops [for layer in net.slices[1]: for node in net.A[layer]:] (cc.py 854-855). *)
Definition over_node_layers {B} (p : mpx) (f : name -> name -> res B) : res (list B) :=
  let? ls := layers1 p in
  let? vss := rmapM (fun l => let? m := intra p (LBare l) in rmapM (fun x => f x l) (net_nodes m)) ls in
  Ok (concat vss).
(** cc.py 825-869 [avg_lcc_aw], [returnCVector] false and true.  The single value is
    computed without [anet]. *)
Definition avg_lcc_aw (p : mpx) (w1 w2 : Q) (w3 : option Q) : res Q :=
  let? cs := over_node_layers p (fun x l => lcc_aw p x l w1 w2 w3 None) in
  fdiv (qsum cs) (inject_Z (Z.of_nat (length cs))).
Definition avg_lcc_aw_vector (p : mpx) (an : option mlnet) : res (Q * Q * Q) :=
  let? cs := over_node_layers p (fun x l => lcc_aw_vector p x l an) in
  let n := inject_Z (Z.of_nat (length cs)) in
  let? c1 := fdiv (qsum ((fun c => c.1.1) <$> cs)) n in
  let? c2 := fdiv (qsum ((fun c => c.1.2) <$> cs)) n in
  let? c3 := fdiv (qsum ((fun c => c.2) <$> cs)) n in
  Ok (c1, c2, c3).
(** The loops of cc.py 948-956 and 1085-1092: the cycles of one node summed over the layers. *)
Definition sn_cycles (p : mpx) (x : name) : res (list Z) :=
  let? ls := layers1 p in
  let? vs := rmapM (cc_cycle_vector_bf p x) ls in Ok (foldl vadd (replicate 10 0) vs).
(** cc.py 947-961 [sncc_aw_layercost]. *)
Definition sncc_aw_layercost (p : mpx) (x : name) (a b : Q) : res Q :=
  let? v := sn_cycles p x in
  let '(t1, t2, t3, (d1, d2, d3)) := aw_totals v in
  let d := ((a * a * a) * inject_Z d1 + a * (b * b) * inject_Z d2 + (b * b * b) * inject_Z d3)%Q in
  Ok (if Qeq_bool d 0 then 0%Q
      else (((a * a * a) * inject_Z t1 + a * (b * b) * inject_Z t2 + (b * b * b) * inject_Z t3) / d)%Q).
(** cc.py 1083-1116 [sncc_aw_seplayers]; [None] stands for the argument [undefined]. *)
Definition sncc_aw_seplayers (p : mpx) (x : name) (w1 w2 w3 : Q) : res (option Q) :=
  let? v := sn_cycles p x in
  let '(t1, t2, t3, (d1, d2, d3)) := aw_totals v in
  let part (w : Q) (t d : Z) : option Q :=
    if decide (d = 0) then if Qle_bool w 0 then Some 0%Q else None else Some (inject_Z t / inject_Z d)%Q in
  Ok (match part w1 t1 d1 with
      | None => None
      | Some c1 =>
        match part w2 t2 d2 with
        | None => None
        | Some c2 => match part w3 t3 d3 with None => None | Some c3 => Some (w1 * c1 + w2 * c2 + w3 * c3)%Q end
        end
      end).
(** cc.py 1042-1079 [gcc_moreno2_seplayers]: like gcc_aw, but the cycles that can be
    walked in two directions are counted twice (lines 1049-1055). *)
Definition moreno2_vector (v : list Z) : list Z :=
  match v with
  | [aaa; aacac; acaac; acaca; acacac; afa; afcac; acfac; acfca; acfcac] =>
    [aaa; 2 * aacac; 2 * acaac; acaca; 2 * acacac; afa; 2 * afcac; 2 * acfac; acfca; 2 * acfcac]
  | _ => v
  end.
Definition gcc_moreno2_seplayers (p : mpx) (w1 w2 : Q) (w3 : option Q) : res Q :=
  let? vs := over_node_layers p (cc_cycle_vector_bf p) in
  Ok (aw_value w1 w2 w3 (foldl vadd (replicate 10 0) (moreno2_vector <$> vs))).
